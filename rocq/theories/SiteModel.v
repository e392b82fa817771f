(** Ocean pole tide coefficients of sites; src/lib/pole_tide/get_desai_ocp_deformation_coeffs.cpp.
    Real arithmetic; lines contain no NUL. Division by zero (two nodes with one longitude or latitude) is not represented.
    parse_line passes `line + sz` as end of the text although `line` has moved (lines 296-297): the pointer lies behind the
    end of the string; numbers end at the NUL before it, the pointer arithmetic itself is not modelled. *)
From Coq Require Import Ascii String Reals ZArith List Bool.
From Verif Require Import Base CString FromChars DoodsonModel GridModel.
From Verif Require AtlasModel.
From Verif Require Import PoleModel.
Import ListNotations.
Open Scope Z_scope.

(** the buffer after the (k+1)-th call of getline(line, 256): a line of 256 characters or more leaves its first 255 characters
    and sets failbit; after that, and after the end of the file, the buffer is the empty string *)
Definition fits (l : list Z) : bool := Z.of_nat (length l) <=? 255.
Definition buffer (file : list (list Z)) (k : nat) : list Z :=
  if forallb fits (firstn k file) then match nth_error file k with Some l => firstn 255 l | None => [] end else [].

(** lines 19-26: behind the first '='; without one the pointer leaves the string *)
Fixpoint nf (line : list Z) : option (list Z) :=
  match line with [] => None | c :: t => if c =? 61 then Some (skip_blanks t) else nf t end.
(** strncmp(line, str, strlen(str)) == 0 *)
Definition starts (str line : list Z) : bool := list_eqb (firstn (length str) line) str.
(** lines 57-74 and the like: None for the return codes 1 and 2 *)
Definition header_value {A} (scan : list Z -> option A * list Z) (key line : list Z) : res (option A) :=
  if negb (starts key line) then Ok None
  else match nf line with None => UB | Some t => Ok (fst (scan t)) end.
Definition obind {A B} (r : res (option A)) (k : A -> res (option B)) : res (option B) :=
  o <- r ;; match o with None => Ok None | Some a => k a end.
(** conversion of long to int *)
Definition to_int (n : Z) : Z := (n + 2 ^ 31) mod 2 ^ 32 - 2 ^ 31.
Definition title1 : list Z := chars "Longitude   Latitude   u_r^R       u_r^I       u_n^R       u_n^I       u_e^R       u_e^I".
Definition title2 : list Z := chars "(degrees)  (degrees)  (        )  (        )  (        )  (        )  (        )  (        )".

Definition nodes : Type := Z * Z * Z * Z.
(** OptRecord, lines 280-283 *)
Record orec := mkOr { oidx : Z; olon : R; olat : R; ov : desai }.
(** site: spherical coordinates in radians *)
Record site := mkSite { slon : R; slat : R }.
Definition deg (r : R) : R := (r * 180 / PI)%R.

Section Sites.
  (** std::from_chars to double *)
  Variable sdbl : list Z -> option R * list Z.

  (** lines 33-253 *)
  Definition parse_header (file : list (list Z)) : res (option grid) :=
    obind (header_value scan_i64 (chars "Number_longitude_Grid_Points") (buffer file 3)) (fun lon_pts =>
    obind (header_value sdbl (chars "First_longitude_degrees") (buffer file 4)) (fun lon_start =>
    obind (header_value sdbl (chars "Last_longitude_degrees") (buffer file 5)) (fun lon_last =>
    obind (header_value sdbl (chars "Longitude_step_degrees") (buffer file 6)) (fun lon_step =>
    obind (header_value scan_i64 (chars "Number_latitude_grid_points") (buffer file 7)) (fun lat_pts =>
    obind (header_value sdbl (chars "First_latitude_degrees") (buffer file 8)) (fun lat_start =>
    obind (header_value sdbl (chars "Last_latitude_degrees") (buffer file 9)) (fun lat_last =>
    obind (header_value sdbl (chars "Latitude_step_degrees") (buffer file 10)) (fun lat_step =>
    if negb (starts title1 (buffer file 11)) then Ok None
    else if negb (starts title2 (buffer file 12)) then Ok None
    else Ok (Some (mkG (to_int lon_pts) (to_int lat_pts) lon_start lon_step lat_start lat_step)))))))))).

  (** lines 261-272 *)
  Fixpoint insert (x : Z) (l : list Z) : list Z :=
    match l with [] => [x] | y :: t => if x <=? y then x :: l else y :: insert x t end.
  Fixpoint sort (l : list Z) : list Z := match l with [] => [] | x :: t => insert x (sort t) end.
  Definition flat (n : nodes) : list Z := let '(bl, br, tl, tr) := n in [bl; br; tl; tr].
  Definition nodes2indexes (l : list nodes) : list Z := sort (flat_map flat l).
  (** lines 292-313 *)
  Definition parse_record (line : list Z) (cidx : Z) : option orec :=
    match AtlasModel.numbers sdbl 8 line with
    | ([Some lon; Some lat; Some a; Some b; Some c; Some d; Some e; Some f], _) => Some (mkOr cidx lon lat (mkDs a b c d e f))
    | _ => None
    end.
  (** lines 370-391: line [cidx] of the data is in the buffer *)
  Fixpoint read_records (file : list (list Z)) (idxs : list Z) (cidx : Z) : option (list orec) :=
    match idxs with
    | [] => Some []
    | idx :: t =>
        let c := Z.max cidx idx in
        match parse_record (buffer file (14 + Z.to_nat c)) c with
        | None => None
        | Some r => match read_records file t c with None => None | Some l => Some (r :: l) end
        end
    end.
  (** std::lower_bound; the records are in the order of their index *)
  Definition lower_bound (recs : list orec) (i : Z) : res orec :=
    match find (fun r => negb (oidx r <? i)) recs with Some r => Ok r | None => UB end.
  (** lines 412-423, 438-449 *)
  Definition combine4 (f f11 f21 f12 f22 : R) (p q r s : R) : R := (f * (p * f11 + q * f21 + r * f12 + s * f22))%R.
  Definition Reqb (a b : R) : bool := if Req_EM_T a b then true else false.
  (** lines 395-450; None: return 1 *)
  Definition interpolate (recs : list orec) (s : site) (n : nodes) : res (option desai) :=
    let '(nbl, nbr, ntl, ntr) := n in
    bl <- lower_bound recs nbl ;; br <- lower_bound recs nbr ;; tl <- lower_bound recs ntl ;; tr <- lower_bound recs ntr ;;
    if negb (nbl =? oidx bl) || negb (nbr =? oidx br) || negb (ntl =? oidx tl) || negb (ntr =? oidx tr) then Ok None else
    let x1 := olon bl in let x2 := olon br in let x := deg (slon s + PI) in
    let y1 := olat bl in let y2 := olat tl in let y := deg (slat s) in
    let c := combine4 (1 / ((x2 - x1) * (y2 - y1))) ((x2 - x) * (y2 - y)) ((x - x1) * (y2 - y)) ((x2 - x) * (y - y1)) ((x - x1) * (y - y1)) in
    if negb (Reqb (olon bl) (olon tl) && Reqb (olon br) (olon tr) && (Reqb (olat bl) (olat br) && Reqb (olat tl) (olat tr))) then Abort
    else if negb (Rleb (olon bl) x && Rleb (olat bl) y) then Abort
    else let at_ (p : desai -> R) := c (p (ov bl)) (p (ov br)) (p (ov tl)) (p (ov tr)) in
      Ok (Some (mkDs (at_ rR) (at_ rI) (at_ nR) (at_ nI) (at_ eR) (at_ eI))).
  (** lines 394-456; [done]: the coefficients so far *)
  Fixpoint each_site (recs : list orec) (l : list (site * nodes)) (done : list desai) : res (list desai * Z) :=
    match l with
    | [] => Ok (done, 0)
    | (s, n) :: t => o <- interpolate recs s n ;; match o with None => Ok (done, 1) | Some c => each_site recs t (done ++ [c]) end
    end.
  (** lines 356-363 *)
  Fixpoint all_nodes (g : grid) (l : list site) : res (list nodes) :=
    match l with
    | [] => Ok []
    | s :: t => n <- surrounding_nodes Datatypes.id Y g (deg (slon s + PI)) (deg (slat s)) ;; r <- all_nodes g t ;; Ok (n :: r)
    end.
  (** lines 317-459: coefficients and return code; [file]: the lines, None if it cannot be opened *)
  Definition site_coeffs (file : option (list (list Z))) (sta : list site) : res (list desai * Z) :=
    match file with
    | None => Ok ([], 1)
    | Some file =>
        o <- parse_header file ;;
        match o with
        | None => Ok ([], 1)
        | Some g =>
            ns <- all_nodes g sta ;;
            match read_records file (nodes2indexes ns) 0 with
            | None => Ok ([], 1)
            | Some recs => each_site recs (List.combine sta ns) []
            end
        end
    end.
End Sites.
