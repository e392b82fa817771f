(** What an ICGEM file says: columns of a data line, records, value of a coefficient at an epoch. *)
From Coq Require Import Ascii String Reals ZArith List Bool.
From Verif Require Import CString FromChars IcgemModel.
Import ListNotations.
Open Scope Z_scope.

(** text made of blank-separated words *)
Inductive columns : list Z -> list (list Z) -> Prop :=
| col_nil n : columns (repeat 32 n) []
| col_cons n w s ws : word w -> at_blank s -> columns s ws -> columns (repeat 32 n ++ w ++ s) (w :: ws).

(** version 1 allows leading plus signs and Fortran exponents (1.5D-03) *)
Fixpoint strip_plus (w : list Z) : list Z := match w with c :: t => if c =? 43 then strip_plus t else w | [] => [] end.
Definition plain (v1 : bool) (w : list Z) : list Z := if v1 then strip_plus (for2cpp w) else w.
Definition num {A} (scan : list Z -> option A * list Z) (v1 : bool) (w : list Z) (v : A) : Prop :=
  plain v1 w <> [] /\ scan (plain v1 w) = (Some v, []).
(** n decimal digits of value v *)
Definition digits (n : nat) (d : list Z) (v : Z) : Prop := length d = n /\ Forall (fun c => is_dig c = true) d /\ digits_val d = v.

Record drec := mkR { rk : kind; rl : Z; rm : Z; rC : R; rS : R; rt0 : Z; rt1 : Z; rp : R }.

Section Spec.
  Variable sdbl : list Z -> option R * list Z.
  Variable mkdate : Z -> Z -> Z -> Z -> Z -> Z.
  Variables MIN MAX : Z.
  Variable years : Z -> Z -> R.

  (** yyyymmdd, more characters may follow *)
  Definition date1 (w : list Z) (t : Z) : Prop := exists y m d ny nm nd rest,
    plain true w = y ++ m ++ d ++ rest /\ digits 4 y ny /\ digits 2 m nm /\ digits 2 d nd /\ t = mkdate ny nm nd 0 0.
  (** yyyymmdd.hhmm *)
  Definition date2 (w : list Z) (t : Z) : Prop := exists y m d h i ny nm nd nh ni,
    w = y ++ m ++ d ++ [46] ++ h ++ i /\ digits 4 y ny /\ digits 2 m nm /\ digits 2 d nd /\ digits 2 h nh /\ digits 2 i ni /\ t = mkdate ny nm nd nh ni.

  (** a line: keyword, degree, order, C, S, error columns, further columns *)
  Definition line_columns (v1 : bool) (line kw : list Z) (r : drec) (es xs : list (list Z)) : Prop := exists s wl wm wc ws,
    line = kw ++ s /\ s <> [] /\ at_blank s /\ columns s (wl :: wm :: wc :: ws :: es ++ xs) /\
    num scan_i32 v1 wl (rl r) /\ num scan_i32 v1 wm (rm r) /\ num sdbl v1 wc (rC r) /\ num sdbl v1 ws (rS r) /\ Forall (fun w => plain v1 w <> []) es.

  (** columns per error model: none, one pair, or two pairs of sigmas *)
  Definition sigma_columns (er : errmodel) : nat := match er with No => 0 | Calibrated => 2 | Formal => 2 | CalibratedAndFormal => 4 end.
  (** what a line of a version 1 file says *)
  Definition says1 (er : errmodel) (line : list Z) (r : drec) : Prop := (length line <= 254)%nat /\ exists es xs,
    match rk r with
    | gfc => line_columns true line (chars "gfc") r es xs
    | gfct => exists w, xs = [w] /\ line_columns true line (chars "gfct") r es xs /\ date1 w (rt0 r) /\ length es = sigma_columns er
    | trnd => line_columns true line (chars "trnd") r es xs \/ line_columns true line (chars "dot") r es xs
    | asin => exists w, xs = [w] /\ line_columns true line (chars "asin") r es xs /\ num sdbl true w (rp r) /\ length es = sigma_columns er
    | acos => exists w, xs = [w] /\ line_columns true line (chars "acos") r es xs /\ num sdbl true w (rp r) /\ length es = sigma_columns er
    end.
  (** what a line of a version 2 file says *)
  Definition says2 (er : errmodel) (line : list Z) (r : drec) : Prop := (length line <= 255)%nat /\ exists es xs,
    match rk r with
    | gfc => line_columns false line (chars "gfc") r es xs /\ rt0 r = MIN /\ rt1 r = MAX
    | gfct => exists w0 w1, xs = [w0; w1] /\ line_columns false line (chars "gfct") r es xs /\ date2 w0 (rt0 r) /\ date2 w1 (rt1 r) /\ length es = sigma_columns er
    | trnd => exists w0 w1, xs = [w0; w1] /\ line_columns false line (chars "trnd") r es xs /\ date2 w0 (rt0 r) /\ date2 w1 (rt1 r) /\ length es = sigma_columns er
    | asin => exists w0 w1 w, xs = [w0; w1; w] /\ line_columns false line (chars "asin") r es xs /\ date2 w0 (rt0 r) /\ date2 w1 (rt1 r) /\ num sdbl false w (rp r) /\ length es = sigma_columns er
    | acos => exists w0 w1 w, xs = [w0; w1; w] /\ line_columns false line (chars "acos") r es xs /\ date2 w0 (rt0 r) /\ date2 w1 (rt1 r) /\ num sdbl false w (rp r) /\ length es = sigma_columns er
    end.

  (** value at an epoch t, from records with their reference epochs *)
  Definition factor (t : Z) (r : drec) : R :=
    match rk r with
    | gfc | gfct => 1%R
    | trnd => years t (rt0 r)
    | asin => sin (2 * PI / rp r * years t (rt0 r))
    | acos => cos (2 * PI / rp r * years t (rt0 r))
    end.
  Definition sum (l : list R) : R := fold_right Rplus 0%R l.
  Definition value_C (t : Z) (rs : list drec) (n m : Z) : R := sum (map (fun r => (rC r * factor t r)%R) (filter (fun r => (rl r =? n) && (rm r =? m)) rs)).
  Definition value_S (t : Z) (rs : list drec) (n m : Z) : R := sum (map (fun r => (rS r * factor t r)%R) (filter (fun r => (rl r =? n) && (rm r =? m)) rs)).
  (** the records that count *)
  Definition within (N M : Z) (r : drec) : bool := (rl r <=? N) && (rm r <=? M).
  Definition valid_at (t : Z) (r : drec) : bool := (rt0 r <=? t) && (t <? rt1 r).
  Definition triangular (r : drec) : Prop := 0 <= rm r <= rl r.
  Definition top_degree (rs : list drec) : Z := fold_right (fun r => Z.max (rl r)) 0 rs.
  Definition top_order (rs : list drec) : Z := fold_right (fun r => Z.max (rm r)) 0 rs.

  (** version 1: the reference epoch of trnd, asin, acos is that of the last gfct, which is of the same degree and order *)
  Fixpoint dated (ref : Z) (rs : list drec) : list drec :=
    match rs with
    | [] => []
    | r :: t => match rk r with
                | gfc => r :: dated ref t
                | gfct => r :: dated (rt0 r) t
                | _ => mkR (rk r) (rl r) (rm r) (rC r) (rS r) ref (rt1 r) (rp r) :: dated ref t
                end
    end.
  Fixpoint after_gfct (cur : option (Z * Z)) (rs : list drec) : Prop :=
    match rs with
    | [] => True
    | r :: t => match rk r with
                | gfc => after_gfct cur t
                | gfct => after_gfct (Some (rl r, rm r)) t
                | _ => cur = Some (rl r, rm r) /\ after_gfct cur t
                end
    end.
End Spec.

(** ** header: items set by keyword lines *)
Inductive item := IProduct (s : list Z) | IName (s : list Z) | IGm (v : R) | IRadius (v : R) | IMaxDegree (n : Z) | IErrors (e : errmodel) | ITide (s : list Z) | INorm (s : list Z) | IVersion2 (b : bool) | IOther.
Section HeaderSpec.
  Variable sdbl : list Z -> option R * list Z.
  (** blanks, keyword, blanks, argument *)
  Definition keyword_line (kw : string) (line arg : list Z) : Prop := exists n k, line = repeat 32 n ++ chars kw ++ repeat 32 (S k) ++ arg /\ match arg with c :: _ => c <> 32 | [] => False end.
  (** text without trailing blanks that fits, with the blanks and the final NUL, in an array of [size] characters *)
  Definition text_arg (size : nat) (arg v : list Z) : Prop := exists j u c, arg = v ++ repeat 32 j /\ v = u ++ [c] /\ c <> 32 /\ (length arg < size)%nat.
  Definition num_arg {A} (scan : list Z -> option A * list Z) (arg : list Z) (v : A) : Prop := exists w rest, arg = w ++ rest /\ at_blank rest /\ scan w = (Some v, []).
  Definition error_name (e : errmodel) : string := match e with No => "no" | Calibrated => "calibrated" | Formal => "formal" | CalibratedAndFormal => "calibrated_and_formal" end.
  Definition keywords : list string := ["product_type"; "modelname"; "earth_gravity_constant"; "radius"; "max_degree"; "errors"; "tide_system"; "norm"; "format"]%string.
  Definition item_line (line : list Z) (i : item) : Prop := (length line <= 255)%nat /\
    match i with
    | IProduct v => exists arg, keyword_line "product_type" line arg /\ text_arg 64 arg v
    | IName v => exists arg, keyword_line "modelname" line arg /\ text_arg 128 arg v
    | IGm v => exists arg, keyword_line "earth_gravity_constant" line arg /\ num_arg sdbl arg v
    | IRadius v => exists arg, keyword_line "radius" line arg /\ num_arg sdbl arg v
    | IMaxDegree v => exists arg, keyword_line "max_degree" line arg /\ num_arg scan_i32 arg v
    | IErrors e => exists arg rest, keyword_line "errors" line arg /\ arg = chars (error_name e) ++ rest /\ at_blank rest
    | ITide v => exists arg, keyword_line "tide_system" line arg /\ text_arg 64 arg v
    | INorm v => exists arg, keyword_line "norm" line arg /\ text_arg 64 arg v
    | IVersion2 b => exists arg rest, keyword_line "format" line arg /\ arg = chars (if b then "icgem2.0" else "icgem1.0") ++ rest
    | IOther => (forall kw n t, In kw keywords -> line <> repeat 32 n ++ chars kw ++ t) /\ forall t, line <> chars "end_of_head" ++ t
    end.
  (** the last item of a kind counts *)
  Definition set_item (h : hdr) (i : item) : hdr :=
    match i with
    | IProduct v => mkH v (hname h) (htide h) (hnorm h) (herr h) (hgm h) (hrad h) (hmax h) (hv2 h)
    | IName v => mkH (hprod h) v (htide h) (hnorm h) (herr h) (hgm h) (hrad h) (hmax h) (hv2 h)
    | IGm v => mkH (hprod h) (hname h) (htide h) (hnorm h) (herr h) v (hrad h) (hmax h) (hv2 h)
    | IRadius v => mkH (hprod h) (hname h) (htide h) (hnorm h) (herr h) (hgm h) v (hmax h) (hv2 h)
    | IMaxDegree v => mkH (hprod h) (hname h) (htide h) (hnorm h) (herr h) (hgm h) (hrad h) v (hv2 h)
    | IErrors v => mkH (hprod h) (hname h) (htide h) (hnorm h) (Some v) (hgm h) (hrad h) (hmax h) (hv2 h)
    | ITide v => mkH (hprod h) (hname h) v (hnorm h) (herr h) (hgm h) (hrad h) (hmax h) (hv2 h)
    | INorm v => mkH (hprod h) (hname h) (htide h) v (herr h) (hgm h) (hrad h) (hmax h) (hv2 h)
    | IVersion2 v => mkH (hprod h) (hname h) (htide h) (hnorm h) (herr h) (hgm h) (hrad h) (hmax h) v
    | IOther => h
    end.
End HeaderSpec.
