(** Celestial intermediate pole and origin: src/lib/iau/xycip06a_xy.cpp, src/lib/iau/xycip06a.cpp, src/lib/iau/xcip06a.cpp,
    src/lib/iau/ycip06a.cpp, src/lib/iau/s06.cpp. Real arithmetic. Arrays of arguments hold fourteen values. *)
From Coq Require Import Reals ZArith List Bool.
From Verif Require Import Base FundModel CipRow CipTabS CipTabX CipTabY CipTabXY.
Import ListNotations.
Open Scope R_scope.

(** coefficients, kept in units of 0.01 microarcseconds *)
Definition coef (z : Z) : R := IZR z / 100.
(** fargs[i], f[i] *)
Definition farg (F : list R) (i : nat) : R := nth i F 0.
Definition num (f : list Z) (i : nat) : R := IZR (nth i f 0%Z).

(** ** one row: s06.cpp:19-37, xcip06a.cpp:19-37, ycip06a.cpp:19-37 *)
Definition has_planetary_args (r : row) : bool := existsb (fun i => negb (nth i (mult r) 0 =? 0)%Z) (seq 5 9).
Definition arg (r : row) (F : list R) : R :=
  let f := mult r in
  let a := farg F 0 * num f 0 + farg F 1 * num f 1 + farg F 2 * num f 2 + farg F 3 * num f 3 + farg F 4 * num f 4 in
  if has_planetary_args r then fold_left (fun a i => a + farg F i * num f i) (seq 5 9) a else a.
(** contribution of a row *)
Definition contribution (r : row) (F : list R) : R := let a := arg r F in coef (ccos r) * cos a + coef (csin r) * sin a.

(** ** s06.cpp:274-348 *)
Definition sum_rows (tab : list row) (F : list R) : R := fold_left (fun c r => c + contribution r F) tab 0.
Definition horner5 (c0 c1 c2 c3 c4 c5 t : R) : R := c0 + (c1 + (c2 + (c3 + (c4 + c5 * t) * t) * t) * t) * t.
Definition detail_s06 (F : list R) (t x y : R) : R :=
  let c4 := sum_rows C4 F in
  let c3 := sum_rows C3 F in
  let c2 := sum_rows C2 F in
  let c1 := sum_rows C1 F in
  let c0 := sum_rows C0 F in
  let cpoly := horner5 94 3808.65 (-122.68) (-72574.11) 27.98 15.62 t in
  let cseries := c0 + (c1 + (c2 + (c3 + c4 * t) * t) * t) * t in
  sec2rad ((cseries + cpoly) * 1e-6) - x * y / 2.

(** ** xcip06a.cpp:6471-6549, ycip06a.cpp:1353-1430 *)
(** KahanSum (include/kahan.hpp) in real arithmetic: sum and error *)
Definition kadd (k : R * R) (v : R) : R * R :=
  let '(s, e) := k in
  let t := s + v in
  if Rle_dec (Rabs v) (Rabs s) then (t, e + ((s - t) + v)) else (t, e + ((v - t) + s)).
Definition ktotal (tab : list row) (F : list R) : R :=
  let '(s, e) := fold_left (fun k r => kadd k (contribution r F)) tab (0, 0) in s + e.
Definition xpoly (t : R) : R := horner5 (-16617) 2004191898 (-429782.9) (-198618.34) 7.578 5.9285 t.
Definition ypoly (t : R) : R := horner5 (-6951) (-25896) (-22407274.7) 1900.59 1112.526 0.1358 t.
Definition detail_xcip06a (F : list R) (t : R) : R :=
  let x4 := ktotal X4 F in
  let x3 := ktotal X3 F in
  let x2 := ktotal X2 F in
  let x1 := ktotal X1 F in
  let x0 := ktotal X0 F in
  x0 + (x1 + (x2 + (x3 + x4 * t) * t) * t) * t + xpoly t.
Definition detail_ycip06a (F : list R) (t : R) : R :=
  let y4 := ktotal Y4 F in
  let y3 := ktotal Y3 F in
  let y2 := ktotal Y2 F in
  let y1 := ktotal Y1 F in
  let y0 := ktotal Y0 F in
  ypoly t + (y0 + (y1 + (y2 + (y3 + y4 * t) * t) * t) * t).

(** ** xycip06a_xy.cpp *)
(** Freq::arg: lines 24-31 *)
Definition freq_arg (s : freq) (F : list R) : R :=
  let f := fmult s in num f 0 * farg F 0 + num f 1 * farg F 1 + num f 2 * farg F 2 + num f 3 * farg F 3 + num f 4 * farg F 4.
(** XyPlntry::arg: lines 46-57; called with fargs + 5 *)
Definition pln_arg (p : plrow) (F : list R) : R :=
  let f := pmult p in
  num f 0 * farg F 5 + num f 1 * farg F 6 + num f 2 * farg F 7 + num f 3 * farg F 8 + num f 4 * farg F 9 +
  num f 5 * farg F 10 + num f 6 * farg F 11 + num f 7 * farg F 12 + num f 8 * farg F 13.
(** lines 14782-14784 *)
Definition tpow (t : R) : list R := let a := t * 1 in let b := t * a in let c := t * b in [1; a; b; c; t * c].
(** the rows of one coordinate for one frequency: lines 14796-14805, 14806-14815; reading behind the table or the powers is undefined *)
Fixpoint rows (n : nat) (F : list R) (tp : list R) (arg_ls ca sa : R) (it : list plrow) (ser : R) : res (R * list plrow) :=
  match n with
  | O => Ok (ser, it)
  | S k =>
      match it with
      | [] => UB
      | p :: it' =>
          let plterms := negb (sumpl p =? 0)%Z in
          let a := if plterms then arg_ls + pln_arg p F else arg_ls in
          let cax := if plterms then cos a else ca in
          let sax := if plterms then sin a else sa in
          if (ppow p <? 0)%Z || (4 <? ppow p)%Z then UB else
          rows k F tp arg_ls ca sa it' (ser + (coef (pcos p) * cax + coef (psin p) * sax) * nth (Z.to_nat (ppow p)) tp 0)
      end
  end.
(** lines 14791-14816: sums and the rows left *)
Fixpoint walk (fs : list freq) (F : list R) (tp : list R) (it : list plrow) (xser yser : R) : res (R * R * list plrow) :=
  match fs with
  | [] => Ok (xser, yser, it)
  | s :: fs' =>
      let arg_ls := freq_arg s F in
      let ca := cos arg_ls in
      let sa := sin arg_ls in
      ' (xser, it) <- rows (Z.to_nat (fnx s)) F tp arg_ls ca sa it xser ;;
      ' (yser, it) <- rows (Z.to_nat (fny s)) F tp arg_ls ca sa it yser ;;
      walk fs' F tp it xser yser
  end.
(** lines 14779-14846 *)
Definition detail_xycip06a (F : list R) (t : R) : res (R * R) :=
  ' (xser, yser, _) <- walk XyLunSol F (tpow t) XyPln 0 0 ;;
  Ok (xser + xpoly t, yser + ypoly t).

(** ** functions of an epoch *)
(** xycip06a_xy.cpp:14854-14862, xycip06a.cpp:12-27, s06.cpp:355-363 *)
Definition arguments (t : R) : list R :=
  [fal03 t; falp03 t; faf03 t; fad03 t; faom03 t; fame03 t; fave03 t; fae03 t; fama03 t; faju03 t; fasa03 t; faur03 t; fane03 t; fapa03 t].
(** xycip06a_xy.cpp:14848-14876: coordinates and arguments handed out *)
Definition xycip06a (tt : epoch) : res (R * R * list R) :=
  let t := jcenturies_sinceJ2000 tt in
  let fa := arguments t in
  ' (x, y) <- detail_xycip06a fa t ;;
  Ok (sec2rad (x * 1e-6), sec2rad (y * 1e-6), fa).
(** xycip06a.cpp:6-44 *)
Definition extra_xycip06a (tt : epoch) : R * R * list R :=
  let t := jcenturies_sinceJ2000 tt in
  let fa := arguments t in
  (sec2rad (detail_xcip06a fa t * 1e-6), sec2rad (detail_ycip06a fa t * 1e-6), fa).
(** s06.cpp:350-365 and 367-370 *)
Definition s06 (tt : epoch) (x y : R) : R := let t := jcenturies_sinceJ2000 tt in detail_s06 (arguments t) t x y.
Definition s06_fargs (tt : epoch) (x y : R) (fargs14 : list R) : R := detail_s06 fargs14 (jcenturies_sinceJ2000 tt) x y.
