(** The scripts test/script/stokes1608-eigen-6s4v2.py and stokes32-eigen-grgs-rl04-mean-field.py: reference values for a coefficient of a
    gravity field that varies with time. Conventions in PyModel; real arithmetic; datetimes are whole seconds. Lines as in the first script;
    the second differs in the table only. *)
From Coq Require Import Ascii String Reals ZArith List Bool.
From Verif Require Import Base CString PyModel.
Import ListNotations.
Open Scope Z_scope.

(** an entry of the table, lines 28-119; None: no such key *)
Record row := mkRow { coef : list Z; rowC : R; rowS : R; t0 : list Z; t1 : list Z; per : option R }.
Section Script.
  (** datetime.strptime with the formats of lines 17 and 21; None: ValueError *)
  Variable ymdhm : list Z -> option Z.
  Variable ymdh : list Z -> option Z.

  (** date_str[-2:] and date_str[:-2] *)
  Definition last2 (s : list Z) : list Z := skipn (length s - 2) s.
  Definition but2 (s : list Z) : list Z := firstn (length s - 2) s.
  (** lines 13-25 *)
  Definition d2s (s : list Z) : py Z :=
    let s := strip s in
    match ymdhm s with
    | Some t => Val t
    | None => if text_eqb (last2 s) (chars "60") then let* t := ofopt ValueError (ymdh (but2 s)) in Val (t + 3600) else Raise (Exit 1)
    end.
  (** lines 137-138: timedelta.days and timedelta.seconds *)
  Definition years_since (t a : Z) : R := ((IZR ((t - a) / 86400) + IZR ((t - a) mod 86400) / 86400) / 365.25)%R.
  (** lines 122-153, one entry *)
  Definition add_row (t : Z) (d : row) (CS : R * R) : py (R * R) :=
    let* a := d2s (t0 d) in
    let* b := d2s (t1 d) in
    let (C, S) := CS in
    if (a <=? t) && (t <? b) then
      if text_eqb (coef d) (chars "gfct") then Val (C + rowC d, S + rowS d)%R else
      if text_eqb (coef d) (chars "trnd") then Val (C + rowC d * years_since t a, S + rowS d * years_since t a)%R else
      if text_eqb (coef d) (chars "asin") then
        let* p := ofopt KeyError (per d) in Val (C + rowC d * sin (PI * 2 / p * years_since t a), S + rowS d * sin (PI * 2 / p * years_since t a))%R else
      if text_eqb (coef d) (chars "acos") then
        let* p := ofopt KeyError (per d) in Val (C + rowC d * cos (PI * 2 / p * years_since t a), S + rowS d * cos (PI * 2 / p * years_since t a))%R
      else Val CS
    else Val CS.
  Fixpoint add_rows (t : Z) (ds : list row) (CS : R * R) : py (R * R) :=
    match ds with [] => Val CS | d :: r => let* x := add_row t d CS in add_rows t r x end.
  (** lines 121-154 *)
  Definition cs_at (table : list row) (t : Z) : py (R * R) := add_rows t table (0, 0)%R.
End Script.
(** test/script/stokes-eigen5c.py:13-21; [ymd]: strptime with the format of line 16 *)
Definition cs40 (ymd : list Z -> option Z) (t : Z) : py (R * R) :=
  let* a := ofopt ValueError (ymd (chars "20041001")) in
  Val (0.539988144712e-06 + 0.470000000000e-11 * years_since t a, 0)%R.
