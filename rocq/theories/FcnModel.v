(** Free core nutation: include/fcn.hpp, src/lib/free_core_nutation/*.cpp.
    Real arithmetic. Epochs are modified Julian dates (datetime library: MjdEpoch, differences in fractional days). *)
From Coq Require Import Ascii String Reals ZArith List Bool.
From Verif Require Import Base CString FromChars GridModel PoleModel.
From Verif Require AtlasModel.
Import ListNotations.
Open Scope Z_scope.

(** fcn.hpp:17-35 *)
Record lcoef := mkL { lt : R; lre : R; lim : R; lsg : R }.
Definition xc (e : lcoef) : R := lre e.
Definition ys (e : lcoef) : R := (- xc e)%R.
Definition xs (e : lcoef) : R := lim e.
Definition yc (e : lcoef) : R := xs e.
Definition sx (e : lcoef) : R := lsg e.
Definition sy (e : lcoef) : R := sx e.
(** fcn.hpp:38-45 *)
Record fresult := mkF { xcip : R; ycip : R; sxcip : R; sycip : R }.

Open Scope R_scope.
(** lambert.cpp:15-18; J2000 is 51544.5 *)
Definition phase (t : R) : R := 2 * PI / (-430.21) * (t - 51544.5).
(** lines 20-25: [l] is the vector backwards; the interval (prev, next) *)
Fixpoint interval (t : R) (l : list lcoef) : option (lcoef * lcoef) :=
  match l with
  | next :: (prev :: _) as r => if Rleb (lt prev) t && Rltb t (lt next) then Some (prev, next) else interval t r
  | _ => None
  end.
(** axc, axs, ayc, ays: value and sigma *)
Record amps := mkA { axc : R * R; axs : R * R; ayc : R * R; ays : R * R }.
(** lines 29-49 *)
Definition interpolated (t : R) (prev next : lcoef) : amps :=
  let dt := t - lt prev in let dT := lt next - lt prev in
  let lin (f : lcoef -> R) := f prev + (f next - f prev) / dT * dt in
  mkA (lin xc, Rabs (lin sx)) (lin xs, Rabs (lin sx)) (lin yc, Rabs (lin sy)) (lin ys, Rabs (lin sy)).
(** lines 52-82: mpe = 0.3 *)
Definition extrapolated (t : R) (e : lcoef) : amps :=
  let dt := t - lt e in
  mkA (xc e, sx e + 0.3 * dt) (xs e, sx e + 0.3 * dt) (yc e, sy e + 0.3 * dt) (ys e, sy e + 0.3 * dt).
(** lines 27-83; rbegin() + 1 leaves an empty vector *)
Definition amplitudes (t : R) (v : list lcoef) : res amps :=
  match rev v, v with
  | last :: _, first :: _ =>
      match interval t (rev v) with
      | Some (prev, next) => Ok (interpolated t prev next)
      | None => if Rleb (lt last) t then Ok (extrapolated t last) else Ok (extrapolated t first)
      end
  | _, _ => UB
  end.
(** lines 85-98 *)
Definition combined (t : R) (a : amps) : fresult :=
  let c := cos (phase t) in let s := sin (phase t) in
  mkF (fst (axc a) * c - fst (axs a) * s) (fst (ayc a) * c - fst (ays a) * s)
      (snd (axc a) + snd (axs a)) (snd (ayc a) + snd (ays a)).
(** lines 5-99 *)
Definition lambert_fcn (t : R) (v : list lcoef) : res fresult := a <- amplitudes t v ;; Ok (combined t a).

(** load_iers10_table52c.cpp:5-39: epoch, and xc, xs, sx times 100 *)
Definition table52c : list (Z * Z * Z * Z) := [
  (45700, 455, -3658, 1972); (46066, -14182, -10535, 1112); (46431, -24656, -17021, 947); (46796, -28189, -15924, 865);
  (47161, -25505, -4358, 811); (47527, -21046, -8856, 731); (47892, -18779, -5735, 641); (48257, -16301, 2626, 552);
  (48622, -14553, 4465, 480); (48988, -14512, 5149, 595); (49353, -10993, 1687, 945); (49718, -8730, 536, 825);
  (50083, -9061, 152, 767); (50449, -9473, 3535, 440); (50814, -6752, 2757, 340); (51179, -4411, -1431, 345);
  (51544, 521, -7487, 326); (51910, 7037, -12966, 286); (52275, 8647, -12784, 275); (52640, 11044, -4273, 259);
  (53005, 11478, -13, 253); (53371, 13296, -478, 272); (53736, 15736, 2863, 219); (54101, 16040, 5887, 187);
  (54466, 15676, 10124, 174); (54832, 14299, 14301, 189); (55197, 3370, 18446, 195); (55562, 76, 25370, 114);
  (55927, 2547, 27166, 107); (56293, 11342, 25650, 186)]%Z.
(** lines 44-55 *)
Definition load_table : list lcoef := map (fun r => let '(m, a, b, s) := r in mkL (IZR m) (IZR a / 100) (IZR b / 100) (IZR s / 100)) table52c.
(** fcn.hpp:132-134 *)
Definition lambert_fcn_iers (t : R) : res fresult := lambert_fcn t load_table.

Open Scope Z_scope.
(** ** coefficient file: parse_lambert_coeffs.cpp *)
(** truncation; (int) of a value outside int is undefined *)
Definition truncZ (x : R) : Z := if Rleb 0 x then Int_part x else - Int_part (- x).
Section File.
  (** std::from_chars to double *)
  Variable sdbl : list Z -> option R * list Z.
  (** lines 108-118; [d]: year, date, real, imag, sigma; None: not initialised. The epoch (day, seconds) is the date again. *)
  Definition push (from to : R) (d : list (option R)) (acc : list lcoef) : res (list lcoef) :=
    match d with
    | [_; Some mjd; a; b; c] =>
        if Rleb from mjd && Rltb mjd to then
          if (- 2 ^ 31 <=? truncZ mjd) && (truncZ mjd <? 2 ^ 31) then
            match a, b, c with Some a, Some b, Some c => Ok (acc ++ [mkL mjd a b c])%list | _, _, _ => UB end
          else UB
        else Ok acc
    | _ => UB
    end.
  (** lines 90-141: vector and return code; a line of 128 characters or more sets failbit *)
  Fixpoint rows (from to : R) (lines : list (list Z)) (d : list (option R)) (error nr : Z) (acc : list lcoef) : res (list lcoef * Z) :=
    match lines with
    | [] => Ok (acc, if error =? 0 then 0 else 3)
    | line :: rest =>
        if 127 <? Z.of_nat (length line) then Ok (acc, if error =? 0 then 4 else 3)
        else if negb (error =? 0) then Ok (acc, 3)
        else if negb (nr + 1 <? 1000) then Ok (acc, 3)
        else let (vs, e) := AtlasModel.numbers sdbl 5 line in
             let d' := keep_cells vs d in
             acc' <- push from to d' acc ;; rows from to rest d' e (nr + 1) acc'
    end.
  (** lines 33-145; [old]: the vector before the call; [lines]: the lines of the file, none containing NUL, or None if it cannot be opened *)
  Definition parse_lambert (from to : R) (lines : option (list (list Z))) (old : list lcoef) : res (list lcoef * Z) :=
    if Rltb to from then Ok (old, 5) else
    match lines with
    | None => Ok ([], 1)
    | Some [] => Ok ([], 1)
    | Some (head :: rest) =>
        if 127 <? Z.of_nat (length head) then Ok ([], 1)
        else match skip_blanks head with
             | c :: _ => if c =? 37 then rows from to rest (repeat None 5) 0 0 [] else Ok ([], 2)
             | [] => Ok ([], 2)
             end
    end.
End File.
