(** ICGEM gravity models: data lines, data section, header; src/lib/icgem/*.cpp, include/icgemio.hpp *)
From Coq Require Import Ascii String Reals ZArith List Bool.
From Verif Require Import Base CString FromChars.
Import ListNotations.
Open Scope Z_scope.

(** include/icgemio.hpp:35-37 *)
Inductive errmodel := No | Calibrated | Formal | CalibratedAndFormal.
Inductive kind := gfc | gfct | trnd | asin | acos.
(** include/icgemio.hpp:38-46 DataEntry; None: never assigned. Epochs in nanoseconds. *)
Record entry := mkE { key : option kind; deg : option Z; ord : option Z; eC : option R; eS : option R; et0 : option Z; et1 : option Z; per : option R }.
Definition blank_entry : entry := mkE None None None None None None None None.
(** a read of a variable that was never assigned is undefined *)
Definition get {A} (o : option A) : res A := match o with Some v => Ok v | None => UB end.
(** std::from_chars leaves its target alone on failure *)
Definition assign {A} (new old : option A) : option A := match new with Some _ => new | None => old end.
Definition cnt {A} (o : option A) : Z := match o with Some _ => 0 | None => 1 end.
(** std::strncmp(line, w, strlen(w)) == 0 *)
Fixpoint prefix (w line : list Z) : bool :=
  match w, line with [] , _ => true | a :: w', b :: l' => (a =? b) && prefix w' l' | _ :: _, [] => false end.

Section Lines.
  Variable sdbl : list Z -> option R * list Z.
  (** Datetime(year, month, day, hours, minutes), Datetime::min(), Datetime::max() *)
  Variable mkdate : Z -> Z -> Z -> Z -> Z -> Z.
  Variables MIN MAX : Z.

  (** src/lib/icgem/resolve_igcem_data_line_v1.cpp:6-10 ([plus]: '+' is skipped too), resolve_igcem_data_line_v2.cpp:5-9 *)
  Fixpoint skip_ws (plus : bool) (s : list Z) : list Z :=
    match s with c :: t => if (c =? 32) || (plus && (c =? 43)) then skip_ws plus t else s | [] => [] end.
  (** resolve_igcem_data_line_v2.cpp:11-20 (v1: 12-21) *)
  Fixpoint skip_cols_loop (n : nat) (s : list Z) : list Z :=
    match s with
    | a :: ((b :: _) as t) => match n with O => s | S k => skip_cols_loop (if negb (a =? 32) && (b =? 32) then k else n) t end
    | _ => s
    end.
  Definition skip_cols (plus : bool) (n : nat) (s : list Z) : list Z := skip_ws plus (skip_cols_loop n (skip_ws plus s)).
  (** resolve_igcem_data_line_v1.cpp:31-43 *)
  Fixpoint for2cpp (s : list Z) : list Z :=
    match s with
    | a :: ((b :: _) as t) => (if ((a =? 68) || (a =? 100)) && ((b =? 43) || (b =? 45)) then 101 else a) :: for2cpp t
    | _ => s
    end.
  (** std::from_chars(s, s + n, int) *)
  Definition scan_lim (n : nat) (s : list Z) : option Z * list Z := let (v, r) := scan_i32 (firstn n s) in (v, r ++ skipn n s).

  (** resolve_igcem_data_date_v1.cpp:4-43: errors, date, rest *)
  Definition date_v1 (s : list Z) : Z * option Z * list Z :=
    let (y, r) := scan_lim 4 s in
    let (m, r) := scan_lim 2 r in
    let (d, r) := scan_lim 2 r in
    match y, m, d with Some y, Some m, Some d => (0, Some (mkdate y m d 0 0), r) | _, _, _ => (cnt y + cnt m + cnt d, None, r) end.
  (** resolve_igcem_data_date_v2.cpp:4-54; stepping over the dot at the end of the string leaves it *)
  Definition date_v2 (s : list Z) : res (Z * option Z * list Z) :=
    let (y, r) := scan_lim 4 s in
    let (m, r) := scan_lim 2 r in
    let (d, r) := scan_lim 2 r in
    match r with
    | [] => UB
    | _ :: r =>
        let (hh, r) := scan_lim 2 r in
        let (mi, r) := scan_lim 2 r in
        Ok match y, m, d, hh, mi with
           | Some y, Some m, Some d, Some hh, Some mi => (0, Some (mkdate y m d hh mi), r)
           | _, _, _, _, _ => (cnt y + cnt m + cnt d + cnt hh + cnt mi, None, r)
           end
    end.

  (** degree, order, C, S: the first four columns; errors, entry, rest *)
  Definition four (plus : bool) (s : list Z) (e : entry) : Z * entry * list Z :=
    let (l, r) := scan_i32 (skip_ws plus s) in
    let (m, r) := scan_i32 (skip_ws plus r) in
    let (c, r) := sdbl (skip_ws plus r) in
    let (s, r) := sdbl (skip_ws plus r) in
    (cnt l + cnt m + cnt c + cnt s, mkE (key e) (assign l (deg e)) (assign m (ord e)) (assign c (eC e)) (assign s (eS e)) (et0 e) (et1 e) (per e), r).
  Definition err_cols (er : errmodel) : nat := match er with Calibrated | Formal => 2 | CalibratedAndFormal => 4 | No => 0 end.

  Definition with_key (k : kind) (e : entry) : entry := mkE (Some k) (deg e) (ord e) (eC e) (eS e) (et0 e) (et1 e) (per e).
  Definition with_dates (a b : option Z) (e : entry) : entry := mkE (key e) (deg e) (ord e) (eC e) (eS e) (assign a (et0 e)) (assign b (et1 e)) (per e).
  Definition with_per (p : option R) (e : entry) : entry := mkE (key e) (deg e) (ord e) (eC e) (eS e) (et0 e) (et1 e) (assign p (per e)).

  (** resolve_igcem_data_line_v1.cpp:46-248: errors and entry; the assert of line 33 allows 254 characters *)
  Definition resolve_v1 (line : list Z) (er : errmodel) (e : entry) : res (Z * entry) :=
    if 254 <? Z.of_nat (length line) then Abort else
    let c := skipn 4 (for2cpp line) in
    let periodic (k : kind) :=
      let '(n, e, r) := four true c e in
      let (p, _) := sdbl (skip_ws true (skip_cols true (err_cols er) r)) in
      Ok (n + cnt p, with_key k (with_per p e)) in
    if prefix (chars "gfc ") line then let '(n, e, _) := four true c e in Ok (n, with_key gfc e)
    else if prefix (chars "gfct") line then
      let '(n, e, r) := four true c e in
      let '(n', d, _) := date_v1 (skip_ws true (skip_cols true (err_cols er) r)) in
      Ok (n + (if n' =? 0 then 0 else 1), with_key gfct (with_dates d None e))
    else if prefix (chars "trnd") line || prefix (chars "dot ") line then let '(n, e, _) := four true c e in Ok (n, with_key trnd e)
    else if prefix (chars "asin") line then periodic asin
    else if prefix (chars "acos") line then periodic acos
    else Ok (1, e).

  (** resolve_igcem_data_line_v2.cpp:23-248. [ptr] is set only by a date that was read *)
  Definition dates_v2 (s : list Z) (n : Z) (e : entry) : res (Z * entry * option (list Z)) :=
    ' (n0, d0, p0) <- date_v2 s ;;
    let e := with_dates d0 None e in
    let n := n + (if n0 =? 0 then 0 else 1) in
    let ptr := if n0 =? 0 then Some p0 else None in
    if n =? 0 then
      ' (n1, d1, p1) <- date_v2 (skip_ws false p0) ;;
      Ok (n + n1, with_dates None d1 e, if n1 =? 0 then Some p1 else ptr)
    else Ok (n, e, ptr).
  Definition resolve_v2 (line : list Z) (er : errmodel) (e : entry) : res (Z * entry) :=
    let c := skipn 4 line in
    let timed (k : kind) :=
      let '(n, e, r) := four false c e in
      ' (n, e, _) <- dates_v2 (skip_ws false (skip_cols false (err_cols er) r)) n e ;;
      Ok (n, with_key k e) in
    let periodic (k : kind) :=
      let '(n, e, r) := four false c e in
      ' (n, e, ptr) <- dates_v2 (skip_ws false (skip_cols false (err_cols er) r)) n e ;;
      p <- get ptr ;;
      let (v, _) := sdbl (skip_ws false p) in
      Ok (n + cnt v, with_key k (with_per v e)) in
    if prefix (chars "gfc ") line then let '(n, e, _) := four false c e in Ok (n, with_key gfc (with_dates (Some MIN) (Some MAX) e))
    else if prefix (chars "gfct") line then timed gfct
    else if prefix (chars "trnd") line then timed trnd
    else if prefix (chars "asin") line then periodic asin
    else if prefix (chars "acos") line then periodic acos
    else Ok (1, e).

  (** ** data sections *)
  (** t.diff<FractionalYears>(t0).years() *)
  Variable years : Z -> Z -> R.
  Definition coeffs := Z -> Z -> R * R.
  Definition zero : coeffs := fun _ _ => (0%R, 0%R).
  (** C(l,m) += c, S(l,m) += s *)
  Definition accum (cs : coeffs) (l m : Z) (c s : R) : res coeffs :=
    if (0 <=? m) && (m <=? l) then Ok (fun n k => if (n =? l) && (k =? m) then ((fst (cs n k) + c)%R, (snd (cs n k) + s)%R) else cs n k) else UB.
  (** state of the loops: coefficients, largest degree and order, entry and (v1) dt, current_n, current_m *)
  Record lst := mkL { lcs : coeffs; ldeg : Z; lord : Z; lent : entry; ldt : R; lcn : Z; lcm : Z }.
  Definition two_pi : R := (2 * PI)%R.
  Definition bR (b : bool) : R := if b then 1%R else 0%R.
  Definition keyb (a b : kind) : bool := match a, b with gfc, gfc | gfct, gfct | trnd, trnd | asin, asin | acos, acos => true | _, _ => false end.

  (** src/lib/icgem/icgemio_read_data_v1.cpp:60-113 *)
  Definition use_v1 (n m t : Z) (st : lst) : res lst :=
    let e := lent st in
    l <- get (deg e) ;;
    if negb (l <=? n) then Ok st else
    k <- get (ord e) ;;
    if negb (k <=? m) then Ok st else
    ky <- get (key e) ;;
    c <- get (eC e) ;;
    s <- get (eS e) ;;
    let here := (lcn st =? l) && (lcm st =? k) in
    ' (c, s, dt, cn, cm) <-
      match ky with
      | gfc => Ok (c, s, ldt st, lcn st, lcm st)
      | gfct => t0 <- get (et0 e) ;; Ok (c, s, years t t0, l, k)
      | trnd => if here then Ok ((c * ldt st)%R, (s * ldt st)%R, ldt st, lcn st, lcm st) else Abort
      | asin => p <- get (per e) ;; if here then Ok ((c * sin (two_pi / p * ldt st))%R, (s * sin (two_pi / p * ldt st))%R, ldt st, lcn st, lcm st) else Abort
      | acos => p <- get (per e) ;; if here then Ok ((c * cos (two_pi / p * ldt st))%R, (s * cos (two_pi / p * ldt st))%R, ldt st, lcn st, lcm st) else Abort
      end ;;
    cs <- accum (lcs st) l k c s ;;
    Ok (mkL cs (Z.max (ldeg st) l) (Z.max (lord st) k) e dt cn cm).

  (** src/lib/icgem/icgemio_read_data_v2.cpp:58-101 *)
  Definition term_v2 (ky : kind) (c dt p : R) : R :=
    (c * bR (keyb ky gfc) + c * bR (keyb ky gfct) + (c * dt) * bR (keyb ky trnd) +
     (if keyb ky asin || keyb ky acos then (c * sin (two_pi / p * dt)) * bR (keyb ky asin) + (c * cos (two_pi / p * dt)) * bR (keyb ky acos) else 0))%R.
  Definition use_v2 (n m t : Z) (st : lst) : res lst :=
    let e := lent st in
    t0 <- get (et0 e) ;;
    if negb (t0 <=? t) then Ok st else
    t1 <- get (et1 e) ;;
    if negb (t <? t1) then Ok st else
    l <- get (deg e) ;;
    if negb (l <=? n) then Ok st else
    k <- get (ord e) ;;
    if negb (k <=? m) then Ok st else
    ky <- get (key e) ;;
    c <- get (eC e) ;;
    s <- get (eS e) ;;
    p <- (if keyb ky asin || keyb ky acos then get (per e) else Ok 1%R) ;;
    cs <- accum (lcs st) l k (term_v2 ky c (years t t0) p) (term_v2 ky s (years t t0) p) ;;
    Ok (mkL cs (Z.max (ldeg st) l) (Z.max (lord st) k) e (ldt st) (lcn st) (lcm st)).

  (** the reading loop (v1: 58-114, v2: 56-102): state, errors, whether the stream failed before the end of the file *)
  Definition set_entry (st : lst) (e : entry) : lst := mkL (lcs st) (ldeg st) (lord st) e (ldt st) (lcn st) (lcm st).
  Fixpoint read_loop (resolve : list Z -> entry -> res (Z * entry)) (use : lst -> res lst) (lines : list (list Z)) (error : Z) (st : lst) : res (lst * Z * bool) :=
    match lines with
    | [] => Ok (st, error, false)
    | line :: rest =>
        if 255 <? Z.of_nat (length line) then Ok (st, error, true)
        else if negb (error =? 0) then Ok (st, error, false)
        else
          ' (n, e) <- resolve line (lent st) ;;
          st' <- use (set_entry st e) ;;
          read_loop resolve use rest (error + n) st'
    end.
  Definition start : lst := mkL zero 0 0 blank_entry 0 (-1) (-1).
  (** parse_data_v1 / parse_data_v2 for a file that can be opened: code, degree, order and coefficients of the caller's set *)
  Definition parse_with resolve use (max_degree l k : Z) (lines : list (list Z)) : res (Z * Z * Z * coeffs) :=
    if (max_degree <? l) || (l <? k) then Ok (1, l, k, zero)
    else
      ' (st, error, bad) <- read_loop resolve use lines 0 start ;;
      if negb (error =? 0) || bad then Ok (1, l, k, lcs st)
      else Ok (0, ldeg st, lord st, lcs st).
  Definition parse_data_v1 (er : option errmodel) (max_degree l k t : Z) (lines : list (list Z)) : res (Z * Z * Z * coeffs) :=
    er <- get er ;; parse_with (fun line => resolve_v1 line er) (use_v1 l k t) max_degree l k lines.
  Definition parse_data_v2 (er : option errmodel) (max_degree l k t : Z) (lines : list (list Z)) : res (Z * Z * Z * coeffs) :=
    er <- get er ;; parse_with (fun line => resolve_v2 line er) (use_v2 l k t) max_degree l k lines.
  (** include/icgemio.hpp:306-316 *)
  Definition parse_data (v2 : bool) (er : option errmodel) (max_degree l k t : Z) (lines : list (list Z)) : res (Z * Z * Z * coeffs) :=
    let l := if l <? 0 then max_degree else l in
    let k := if k <? 0 then l else k in
    if v2 then parse_data_v2 er max_degree l k t lines else parse_data_v1 er max_degree l k t lines.
End Lines.

(** ** header: src/lib/icgem/icgemio_read_header.cpp *)
Section Header.
  Variable sdbl : list Z -> option R * list Z.
  (** members set by the header; include/icgemio.hpp:48-84. None: never assigned *)
  Record hdr := mkH { hprod : list Z; hname : list Z; htide : list Z; hnorm : list Z; herr : option errmodel; hgm : R; hrad : R; hmax : Z; hv2 : bool }.
  Definition default_hdr : hdr := mkH [] [] (chars "unknown") (chars "fully_normalized") None 0 0 0 false.
  (** lines 27-33 *)
  Fixpoint to_ws (s : list Z) : list Z := match s with c :: t => if c =? 32 then s else to_ws t | [] => [] end.
  (** lines 71-87 *)
  Definition match_kw (kw line : list Z) : option (list Z) :=
    let s := skip_blanks line in if prefix kw s then Some (skip_blanks (to_ws s)) else None.
  (** lines 36-44 on a nonempty string: trailing blanks removed, the first character stays *)
  Fixpoint drop_blanks_rev (s : list Z) : list Z := match s with c :: ((_ :: _) as t) => if c =? 32 then drop_blanks_rev t else s | _ => s end.
  Definition right_trim (s : list Z) : list Z := rev (drop_blanks_rev (rev s)).
  (** strcpy into an array of n characters *)
  Definition copy_to (n : Z) (s : list Z) : res (list Z) := if Z.of_nat (length s) <? n then Ok (right_trim s) else UB.
  (** one header line, lines 133-296: error code and members *)
  Definition header_line (line : list Z) (h : hdr) : res (Z * hdr) :=
    let text kw n (set : list Z -> hdr) k :=
      match match_kw (chars kw) line with
      | Some [] => Ok (1, h)
      | Some arg => v <- copy_to n arg ;; Ok (0, set v)
      | None => k tt
      end in
    let number kw (set : R -> hdr) k :=
      match match_kw (chars kw) line with
      | Some [] => Ok (1, h)
      | Some arg => match sdbl arg with (Some v, _) => Ok (0, set v) | (None, _) => Ok (2, h) end
      | None => k tt
      end in
    text "product_type"%string 64 (fun v => mkH v (hname h) (htide h) (hnorm h) (herr h) (hgm h) (hrad h) (hmax h) (hv2 h)) (fun _ =>
    text "modelname"%string 128 (fun v => mkH (hprod h) v (htide h) (hnorm h) (herr h) (hgm h) (hrad h) (hmax h) (hv2 h)) (fun _ =>
    number "earth_gravity_constant"%string (fun v => mkH (hprod h) (hname h) (htide h) (hnorm h) (herr h) v (hrad h) (hmax h) (hv2 h)) (fun _ =>
    number "radius"%string (fun v => mkH (hprod h) (hname h) (htide h) (hnorm h) (herr h) (hgm h) v (hmax h) (hv2 h)) (fun _ =>
    match match_kw (chars "max_degree") line with
    | Some [] => Ok (1, h)
    | Some arg => match scan_i32 arg with
                  | (Some v, _) => Ok (0, mkH (hprod h) (hname h) (htide h) (hnorm h) (herr h) (hgm h) (hrad h) v (hv2 h))
                  | (None, _) => Ok (2, h)
                  end
    | None =>
    match match_kw (chars "errors") line with
    | Some [] => Ok (1, h)
    | Some arg =>
        let er := if prefix (chars "calibrated_and_formal") arg then CalibratedAndFormal
                  else if prefix (chars "calibrated") arg then Calibrated
                  else if prefix (chars "formal") arg then Formal else No in
        Ok (0, mkH (hprod h) (hname h) (htide h) (hnorm h) (Some er) (hgm h) (hrad h) (hmax h) (hv2 h))
    | None =>
    text "tide_system"%string 64 (fun v => mkH (hprod h) (hname h) v (hnorm h) (herr h) (hgm h) (hrad h) (hmax h) (hv2 h)) (fun _ =>
    text "norm"%string 64 (fun v => mkH (hprod h) (hname h) (htide h) v (herr h) (hgm h) (hrad h) (hmax h) (hv2 h)) (fun _ =>
    match match_kw (chars "format") line with
    | Some [] => Ok (1, h)
    | Some arg => if prefix (chars "icgem1.0") arg then Ok (0, mkH (hprod h) (hname h) (htide h) (hnorm h) (herr h) (hgm h) (hrad h) (hmax h) false)
                  else if prefix (chars "icgem2.0") arg then Ok (0, mkH (hprod h) (hname h) (htide h) (hnorm h) (herr h) (hgm h) (hrad h) (hmax h) true)
                  else Ok (2, h)
    | None => Ok (0, h)
    end))
    end
    end)))).
  (** lines 119-312, [count] lines processed so far. With no end_of_head getline leaves an empty string until the counter
      runs out; so it does after a line of 256 characters or more, of which 255 are processed (if these start with
      end_of_head the data section has no position: not followed here). Code, members, lines of the data section. *)
  Definition max_header_lines : Z := 1000.
  Fixpoint header_loop (count : Z) (lines : list (list Z)) (h : hdr) : res (Z * hdr * list (list Z)) :=
    match lines with
    | [] => Ok (1, h, [])
    | line :: rest =>
        let long := 255 <? Z.of_nat (length line) in
        let line := firstn 255 line in
        if prefix (chars "end_of_head") line then Ok (0, h, rest)
        else
          ' (error, h') <- header_line line h ;;
          if negb (error =? 0) then Ok (error, h', [])
          else if max_header_lines <? count + 1 then Ok (1, h', [])
          else if long then Ok (1, h', [])
          else header_loop (count + 1) rest h'
    end.
  Definition parse_header (lines : list (list Z)) : res (Z * hdr * list (list Z)) := header_loop 0 lines default_hdr.
  (** include/icgemio.hpp:241-243 *)
  Definition is_normalized (h : hdr) : bool := if list_eq_dec Z.eq_dec (hnorm h) (chars "fully_normalized") then true else false.
End Header.
