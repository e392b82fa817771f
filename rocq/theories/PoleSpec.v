(** IERS formulas for the pole tide; what an ocean pole tide object must satisfy; contents of the Desai file. *)
From Coq Require Import Ascii String Reals ZArith List Bool.
From Verif Require Import IcgemSpec Base StorageModel MatrixModel MatrixSpec CString FromChars TideModel TideSpec PoleModel.
Import ListNotations.

(** ** IERS Conventions 2010 *)
Section Iers.
Open Scope R_scope.
(** secular pole in arcseconds, [t] years after 2000.0 (7.21, updated 2018) *)
Definition xs (t : R) : R := 0.055 + 0.001677 * t.
Definition ys (t : R) : R := 0.3205 + 0.00346 * t.
(** (7.24) *)
Definition m1 (t xp : R) : R := xp - xs t.
Definition m2 (t yp : R) : R := - (yp - ys t).
(** displacement of the solid Earth along colatitude, longitude and radius in mm (7.26) *)
Definition s_theta (m1 m2 theta lambda : R) : R := - 9 * cos (2 * theta) * (m1 * cos lambda + m2 * sin lambda).
Definition s_lambda (m1 m2 theta lambda : R) : R := 9 * cos theta * (m1 * sin lambda - m2 * cos lambda).
Definition s_r (m1 m2 theta lambda : R) : R := - 33 * sin (2 * theta) * (m1 * cos lambda + m2 * sin lambda).
(** unit vectors of the spherical coordinates *)
Definition e_theta (t l : R) : vec := (cos t * cos l, cos t * sin l, - sin t).
Definition e_lambda (l : R) : vec := (- sin l, cos l, 0).
Definition e_r (t l : R) : vec := (sin t * cos l, sin t * sin l, cos t).
Definition addv (a b : vec) : vec := let '(x, y, z) := a in let '(u, v, w) := b in (x + u, y + v, z + w).
Definition dotv (a b : vec) : R := let '(x, y, z) := a in let '(u, v, w) := b in x * u + y * v + z * w.
Definition times (k : R) (v : vec) : vec := let '(x, y, z) := v in (k * x, k * y, k * z).
(** arcseconds in radians *)
Definition arcsec (x : R) : R := x / 3600 * (PI / 180).
(** real and imaginary part of (m1 - i m2) gamma2, as they multiply the real and imaginary coefficients (6.23a) *)
Definition g_real (m1 m2 : R) : R := arcsec m1 * 0.6870 + arcsec m2 * 0.0036.
Definition g_imag (m1 m2 : R) : R := arcsec m2 * 0.6870 - arcsec m1 * 0.0036.
End Iers.

(** ** ocean pole tide objects *)
Open Scope Z_scope.
(** load Love number of degree n *)
Definition love (n : Z) : R := match nth_error kn_table (Z.to_nat n) with Some k => (IZR k / 10 ^ 12)%R | None => 0%R end.
Definition desai_term (re im : Z -> Z -> R) (fr fi : R) (n m : Z) : R :=
  ((1 + love n) / IZR (2 * n + 1) * (re n m * fr + im n m * fi))%R.
(** an object of degree d with all its matrices, the coefficients a + ib and c + id of the model *)
Record opt_ok (h : mem R) (o : opt) (a b c d : Z -> Z -> R) : Prop := {
  ok_order : 0 <= oord o <= odeg o;
  ok_cs : csdeg o = odeg o;
  ok_C : sized h (odeg o) (oC o); ok_S : sized h (odeg o) (oS o); ok_apart : apart (oC o) (oS o);
  ok_Ar : sized h (odeg o) (Ar o) /\ shows h (odeg o) (Ar o) (fun i j => Some (a i j)) /\ apart (Ar o) (oC o) /\ apart (Ar o) (oS o);
  ok_Ai : sized h (odeg o) (Ai o) /\ shows h (odeg o) (Ai o) (fun i j => Some (b i j)) /\ apart (Ai o) (oC o) /\ apart (Ai o) (oS o);
  ok_Br : sized h (odeg o) (Br o) /\ shows h (odeg o) (Br o) (fun i j => Some (c i j)) /\ apart (Br o) (oC o) /\ apart (Br o) (oS o);
  ok_Bi : sized h (odeg o) (Bi o) /\ shows h (odeg o) (Bi o) (fun i j => Some (d i j)) /\ apart (Bi o) (oC o) /\ apart (Bi o) (oS o) }.
(** degree and order of a call, negative numbers standing for those of the object *)
Definition asked (o : opt) (n : Z) (dflt : Z) : Z := if n <? 0 then dflt else n.
Definition accepted (o : opt) (md mo : Z) : Prop :=
  asked o mo (oord o) <= asked o md (odeg o) /\ asked o md (odeg o) <= odeg o /\ asked o mo (oord o) <= oord o.
(** coefficients computed by a call *)
Definition computed (md mo n m : Z) : bool := (n <=? md) && (m <=? mo).

(** ** Desai's coefficient file *)
Record drow := mkRow { dn : Z; dm : Z; dAr : R; dBr : R; dAi : R; dBi : R }.
(** blanks removed *)
Definition squeeze (l : list Z) : list Z := filter (fun c => negb (c =? 32)) l.
(** the line shows the record: six columns, further columns ignored *)
Definition row_line (sdbl : list Z -> option R * list Z) (line : list Z) (r : drow) : Prop :=
  (length line <= 255)%nat /\ exists wn wm wa wb wc wd rest, columns line (wn :: wm :: wa :: wb :: wc :: wd :: rest) /\
    scan_i32 wn = (Some (dn r), []) /\ scan_i32 wm = (Some (dm r), []) /\
    sdbl wa = (Some (dAr r), []) /\ sdbl wb = (Some (dBr r), []) /\ sdbl wc = (Some (dAi r), []) /\ sdbl wd = (Some (dBi r), []).
(** the six numbers can be read one after the other, possibly without blanks between them *)
Definition reads_row (sdbl : list Z -> option R * list Z) (line : list Z) (r : drow) : Prop :=
  (length line <= 255)%nat /\ exists r1 r2 r3 r4 r5 r6,
    scan_i32 (skip_blanks line) = (Some (dn r), r1) /\ scan_i32 (skip_blanks r1) = (Some (dm r), r2) /\
    sdbl (skip_blanks r2) = (Some (dAr r), r3) /\ sdbl (skip_blanks r3) = (Some (dBr r), r4) /\
    sdbl (skip_blanks r4) = (Some (dAi r), r5) /\ sdbl (skip_blanks r5) = (Some (dBi r), r6).
(** value of a coefficient: the last record of its degree and order, zero if there is none or the order is above the limit *)
Fixpoint last_row (rs : list drow) (n m : Z) : option drow :=
  match rs with
  | [] => None
  | r :: t => match last_row t n m with Some x => Some x | None => if (dn r =? n) && (dm r =? m) then Some r else None end
  end.
Definition file_value (part : drow -> R) (rs : list drow) (mo n m : Z) : R :=
  if m <=? mo then match last_row rs n m with Some r => part r | None => 0%R end else 0%R.
(** the four matrices A real, A imaginary, B real, B imaginary: separate memory, sizes, contents *)
Definition disjoint4 (m : coefs) : Prop :=
  apart (cAr m) (cAi m) /\ apart (cAr m) (cBr m) /\ apart (cAr m) (cBi m) /\ apart (cAi m) (cBr m) /\ apart (cAi m) (cBi m) /\ apart (cBr m) (cBi m).
Definition four (h : mem R) (d : Z) (m : coefs) (f g p q : Z -> Z -> cell R) : Prop :=
  (sized h d (cAr m) /\ shows h d (cAr m) f) /\ (sized h d (cAi m) /\ shows h d (cAi m) g) /\
  (sized h d (cBr m) /\ shows h d (cBr m) p) /\ (sized h d (cBi m) /\ shows h d (cBi m) q) /\ disjoint4 m.
(** before reading: any four separate matrices *)
Definition own4 (h : mem R) (m : coefs) : Prop :=
  (valid h (cAr m) /\ sch (st (cAr m)) = LwTriCol) /\ (valid h (cAi m) /\ sch (st (cAi m)) = LwTriCol) /\
  (valid h (cBr m) /\ sch (st (cBr m)) = LwTriCol) /\ (valid h (cBi m) /\ sch (st (cBi m)) = LwTriCol) /\ disjoint4 m.
(** records within the limits have 0 <= order <= degree *)
Definition in_file (md mo : Z) (r : drow) : Prop := dn r <= md -> dm r <= mo -> 0 <= dm r <= dn r.
Definition shows_file (h : mem R) (m : coefs) (rs : list drow) (md mo : Z) : Prop :=
  four h md m (fun n k => Some (file_value dAr rs mo n k)) (fun n k => Some (file_value dAi rs mo n k))
              (fun n k => Some (file_value dBr rs mo n k)) (fun n k => Some (file_value dBi rs mo n k)).
(** the two integers at the beginning of a line, each if it is there; the record before the first one *)
Definition first_int (line : list Z) : option Z := fst (scan_i32 (skip_blanks line)).
Definition second_int (line : list Z) : option Z := fst (scan_i32 (skip_blanks (snd (scan_i32 (skip_blanks line))))).
Definition row0 : drow := mkRow 0 0 0%R 0%R 0%R 0%R.
