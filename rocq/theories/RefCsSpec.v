(** What C94 talks about. *)
From Coq Require Import Ascii String Reals ZArith List.
From Verif Require Import Base CString PyModel FromChars IcgemModel IcgemSpec RefCsModel.
Import ListNotations.
Open Scope Z_scope.

(** Julian years between two numbers of seconds *)
Definition julian_years (t a : Z) : R := (IZR (t - a) / (86400 * 365.25))%R.
(** the two formats on digits: the date if it exists; sixty minutes and more do not *)
Definition calendar (mk : Z -> Z -> Z -> Z -> Z -> option Z) (ymdhm ymdh : list Z -> option Z) : Prop := forall y m d h i ny nm nd nh ni,
  digits 4 y ny -> digits 2 m nm -> digits 2 d nd -> digits 2 h nh -> digits 2 i ni ->
  ymdhm (y ++ m ++ d ++ [46] ++ h ++ i)%list = (if ni <? 60 then mk ny nm nd nh ni else None) /\ ymdh (y ++ m ++ d ++ [46] ++ h)%list = mk ny nm nd nh 0.
(** the keyword of a kind of entry *)
Definition keyword (k : kind) : list Z := match k with gfc => chars "gfc" | gfct => chars "gfct" | trnd => chars "trnd" | asin => chars "asin" | acos => chars "acos" end.
(** an entry of the table is a record of a file; dates by [reads] *)
Definition same_record (reads : list Z -> Z -> Prop) (d : row) (r : drec) : Prop :=
  coef d = keyword (rk r) /\ rk r <> gfc /\ rowC d = rC r /\ rowS d = rS r /\ reads (t0 d) (rt0 r) /\ reads (t1 d) (rt1 r) /\
  (rk r = asin \/ rk r = acos -> per d = Some (rp r)).
