(** Downloading AOD1B files: bin/getAod1b.py. Conventions in PyModel; dates are numbers of days and end before the year 10000; messages are
    not modelled. The files on disk survive an exception. *)
From Coq Require Import Ascii String ZArith List Bool.
From Verif Require Import Base CString PyModel.
Import ListNotations.
Open Scope Z_scope.

(** files by name *)
Definition files := list Z -> option (list Z).
Definition put (d : files) (f text : list Z) : files := fun g => if text_eqb g f then Some text else d g.
Definition present (d : files) (f : list Z) : bool := match d f with Some _ => true | None => false end.
(** '{:02d}'.format *)
Definition two (n : Z) : list Z := if (0 <=? n) && (n <? 10) then 48 :: str_int n else str_int n.

Section Get.
  (** strftime with '%Y-%m-%d' and '%Y' *)
  Variables day_text year_text : Z -> list Z.
  (** what the server gives for a directory and a name; None: exception after the output file has been opened *)
  Variable retr : list Z -> list Z -> option (list Z).
  (** connection, login and directory; false: exception before the output file is opened *)
  Variable connect : list Z -> list Z -> bool.
  (** gzip; None: exception when reading, the output file is open *)
  Variable gunzip : list Z -> option (list Z).

  Definition server : list Z := chars "isdcftp.gfz-potsdam.de".
  (** product_name: lines 18-23; without a value for fn when tidal *)
  Definition product_name (tidal : bool) (rl t : Z) : py (list Z * list Z * list Z) :=
    if tidal then Raise NameError else
    Val (replace (chars "RL") (two rl) (replace (chars "DATE") (day_text t) (chars "AOD1B_DATE_X_RL.asc.gz")),
         replace (chars "NN") (two rl) (replace (chars "YYYY") (year_text t) (chars "/grace/Level-1B/GFZ/AOD/RLNN/YYYY")), server).
  (** ftpget: lines 25-34 *)
  Definition ftpget (url dir fn out : list Z) (d : files) : files * py (list Z) :=
    let saveas := pathjoin out fn in
    if negb (connect url dir) then (d, Raise OSError) else
    match retr dir fn with
    | None => (put d saveas [], Raise OSError)
    | Some s => (put d saveas s, Val saveas)
    end.
  (** [0:-3] *)
  Definition but3 (s : list Z) : list Z := firstn (length s - 3) s.
  Definition gz (s : list Z) : bool := text_eqb (skipn (length s - 3) s) (chars ".gz").
  Definition nogz (s : list Z) : list Z := replace (chars ".gz") [] s.
  (** lines 112-129 *)
  Definition one_day (tidal dcmp : bool) (rl : Z) (out : list Z) (t : Z) (d : files) : files * py unit :=
    match product_name tidal rl t with
    | Raise e => (d, Raise e)
    | Forever => (d, Forever)
    | Val (fn, dir, url) =>
        let full := pathjoin out fn in
        let plain := pathjoin out (nogz fn) in
        let '(d, saveas) := if present d full || present d plain then (d, Val (if present d full then full else plain)) else ftpget url dir fn out d in
        match saveas with
        | Raise e => (d, Raise e)
        | Forever => (d, Forever)
        | Val saveas =>
            if negb (present d saveas) && negb (present d (nogz saveas)) then (d, Raise (Exit 9)) else
            if gz saveas && dcmp then
              match d saveas with
              | None => (d, Raise OSError)
              | Some z => match gunzip z with Some s => (put d (but3 saveas) s, Val tt) | None => (put d (but3 saveas) [], Raise OSError) end
              end
            else (d, Val tt)
        end
    end.
  (** lines 110-131 *)
  Fixpoint days (n : nat) (tidal dcmp : bool) (rl : Z) (out : list Z) (t : Z) (d : files) : files * py unit :=
    match n with
    | O => (d, Val tt)
    | S k =>
        match one_day tidal dcmp rl out t d with
        | (d, Val _) => days k tidal dcmp rl out (t + 1) d
        | (d, e) => (d, e)
        end
    end.
  (** lines 106-131 *)
  Definition main (tidal dcmp : bool) (rl : Z) (out : list Z) (tfrom : Z) (tend : option Z) (d : files) : files * py unit :=
    let tend := match tend with Some t => t | None => tfrom + 1 end in
    days (Z.to_nat (tend - tfrom)) tidal dcmp rl out tfrom d.
End Get.
