(** The series of CipModel and the fundamental arguments of FundModel as expressions with rounding (FlModel): src/lib/iau/xycip06a_xy.cpp,
    src/lib/iau/s06.cpp, include/fundarg.hpp. Variables 0..13 are fargs, 14 is t, 15 is x, 16 is y. *)
From Coq Require Import Reals ZArith List Bool.
From Verif Require Import Base FundModel CipRow CipTabS CipTabXY CipModel FlModel.
Import ListNotations.
Open Scope nat_scope.

Definition te : expr := Var 14.
(** a coefficient in microarcseconds, kept in units of 0.01 *)
Definition coefe (z : Z) : expr := Dec z 2.
Definition nume (f : list Z) (i : nat) : expr := Int (nth i f 0%Z).

(** ** xycip06a_xy.cpp *)
(** lines 24-31 *)
Definition freq_arge (s : freq) : expr :=
  let f := fmult s in let p i := Mul (nume f i) (Var i) in Add (Add (Add (Add (p 0) (p 1)) (p 2)) (p 3)) (p 4).
(** lines 46-57 *)
Definition pln_arge (q : plrow) : expr :=
  let f := pmult q in let p i := Mul (nume f i) (Var (5 + i)) in
  Add (Add (Add (Add (Add (Add (Add (Add (p 0) (p 1)) (p 2)) (p 3)) (p 4)) (p 5)) (p 6)) (p 7)) (p 8).
(** lines 14782-14784 *)
Definition tpowe : list expr := let a := Mul te (Int 1) in let b := Mul te a in let c := Mul te b in [Int 1; a; b; c; Mul te c].
(** lines 14796-14805, 14806-14815 *)
Fixpoint rowse (n : nat) (arg_ls : expr) (it : list plrow) (ser : expr) : res (expr * list plrow) :=
  match n with
  | O => Ok (ser, it)
  | S k =>
      match it with
      | [] => UB
      | p :: it' =>
          let plterms := negb (sumpl p =? 0)%Z in
          let a := if plterms then Add arg_ls (pln_arge p) else arg_ls in
          if (ppow p <? 0)%Z || (4 <? ppow p)%Z then UB else
          rowse k arg_ls it' (Add ser (Mul (Add (Mul (coefe (pcos p)) (Cos a)) (Mul (coefe (psin p)) (Sin a))) (nth (Z.to_nat (ppow p)) tpowe (Int 0))))
      end
  end.
(** lines 14791-14816 *)
Fixpoint walke (fs : list freq) (it : list plrow) (xser yser : expr) : res (expr * expr * list plrow) :=
  match fs with
  | [] => Ok (xser, yser, it)
  | s :: fs' =>
      let arg_ls := freq_arge s in
      ' (xser, it) <- rowse (Z.to_nat (fnx s)) arg_ls it xser ;;
      ' (yser, it) <- rowse (Z.to_nat (fny s)) arg_ls it yser ;;
      walke fs' it xser yser
  end.
Definition horner5e (c0 c1 c2 c3 c4 c5 : expr) : expr :=
  Add c0 (Mul (Add c1 (Mul (Add c2 (Mul (Add c3 (Mul (Add c4 (Mul c5 te)) te)) te)) te)) te).
(** lines 14819-14841 *)
Definition xpolye : expr := horner5e (Dec (-16617) 0) (Dec 2004191898 0) (Dec (-4297829) 1) (Dec (-19861834) 2) (Dec 7578 3) (Dec 59285 4).
Definition ypolye : expr := horner5e (Dec (-6951) 0) (Dec (-25896) 0) (Dec (-224072747) 1) (Dec 190059 2) (Dec 1112526 3) (Dec 1358 4).
(** lines 14779-14846 *)
Definition detail_xycip06ae : res (expr * expr) :=
  ' (xser, yser, _) <- walke XyLunSol XyPln (Int 0) (Int 0) ;;
  Ok (Add xser xpolye, Add yser ypolye).

(** ** s06.cpp:19-37, 274-348 *)
Definition arge (r : row) : expr :=
  let f := mult r in let p i := Mul (Var i) (nume f i) in
  let a := Add (Add (Add (Add (p 0) (p 1)) (p 2)) (p 3)) (p 4) in
  if has_planetary_args r then fold_left (fun a i => Add a (p i)) (seq 5 9) a else a.
Definition contributione (r : row) : expr := let a := arge r in Add (Mul (coefe (ccos r)) (Cos a)) (Mul (coefe (csin r)) (Sin a)).
Definition sum_rowse (tab : list row) : expr := fold_left (fun c r => Add c (contributione r)) tab (Int 0).
Definition cpolye : expr := horner5e (Dec 94 0) (Dec 380865 2) (Dec (-12268) 2) (Dec (-7257411) 2) (Dec 2798 2) (Dec 1562 2).
Definition cseriese : expr :=
  Add (sum_rowse C0) (Mul (Add (sum_rowse C1) (Mul (Add (sum_rowse C2) (Mul (Add (sum_rowse C3) (Mul (sum_rowse C4) te)) te)) te)) te).
Definition detail_s06e : expr := Sub (Sec (Mul (Add cseriese cpolye) (Dec 1 6))) (Quo (Mul (Var 15) (Var 16)) 2).

(** ** fundarg.hpp: the angles before the reduction by std::fmod; variable 14 is t *)
(** lines 61-68, 91-98, 121-128, 152-159, 186-193 *)
Definition horner4e (c0 c1 c2 c3 c4 : expr) : expr := Add c0 (Mul te (Add c1 (Mul te (Add c2 (Mul te (Add c3 (Mul te c4))))))).
Definition lunisolare : list expr :=
  [horner4e (Dec 485868249036 6) (Dec 17179159232178 4) (Dec 318792 4) (Dec 51635 6) (Dec (-24470) 8);
   horner4e (Dec 1287104793048 6) (Dec 1295965810481 4) (Dec (-5532) 4) (Dec 136 6) (Dec (-1149) 8);
   horner4e (Dec 335779526232 6) (Dec 17395272628478 4) (Dec (-127512) 4) (Dec (-1037) 6) (Dec 417 8);
   horner4e (Dec 1072260703692 6) (Dec 16029616012090 4) (Dec (-63706) 4) (Dec 6593 6) (Dec (-3169) 8);
   horner4e (Dec 450160398036 6) (Dec (-69628905431) 4) (Dec 74722 4) (Dec 7702 6) (Dec (-5939) 8)].
(** lines 217-323 *)
Definition lineare (c0 c1 : expr) : expr := Add c0 (Mul c1 te).
Definition planetarye : list expr :=
  [lineare (Dec 4402608842 9) (Dec 26087903141574 10); lineare (Dec 3176146697 9) (Dec 10213285546211 10);
   lineare (Dec 1753470314 9) (Dec 6283075849991 10); lineare (Dec 6203480913 9) (Dec 3340612426700 10);
   lineare (Dec 599546497 9) (Dec 529690962641 10); lineare (Dec 874016757 9) (Dec 213299104960 10);
   lineare (Dec 5481293872 9) (Dec 74781598567 10); lineare (Dec 5311886287 9) (Dec 38133035638 10)].
Definition fapa03e : expr := Mul (Add (Dec 24381750 9) (Mul (Dec 538691 11) te)) te.

Open Scope R_scope.
(** values of the functions of fundarg.hpp for a computed t: std::fmod is exact; d2pi is the constant D2PI of the geodesy library *)
Section Args.
  Variable d2pi : R.
  Definition tenv (t : R) : nat -> R := fun _ => t.
  Definition lunisolar_run (t : R) (e : expr) (v : R) : Prop :=
    exists p, run (tenv t) e p /\ Rabs (v - sec2rad (fmod p TURNAS)) <= 4 * u * Rabs (sec2rad (fmod p TURNAS)) + tiny.
  Definition planetary_run (t : R) (e : expr) (v : R) : Prop := exists p, run (tenv t) e p /\ v = fmod p d2pi.
  (** xycip06a_xy.cpp:14854-14862 *)
  Definition arguments_run (t : R) (F : list R) : Prop :=
    exists L P a, F = L ++ P ++ [a] /\ Forall2 (lunisolar_run t) lunisolare L /\ Forall2 (planetary_run t) planetarye P /\ run (tenv t) fapa03e a.
  (** the variables of the series *)
  Definition venv (F : list R) (t x y : R) : nat -> R := fun i => nth i (F ++ [t; x; y]) 0.
  (** xycip06a_xy.cpp:14848-14876 for the computed number of centuries t *)
  Definition xycip06a_run (t x y : R) (F : list R) : Prop :=
    arguments_run t F /\
    exists ex ey, detail_xycip06ae = Ok (ex, ey) /\ run (venv F t 0 0) (Sec (Mul ex (Dec 1 6))) x /\ run (venv F t 0 0) (Sec (Mul ey (Dec 1 6))) y.
  (** s06.cpp:350-365 *)
  Definition s06_run (t x y s : R) : Prop := exists F, arguments_run t F /\ run (venv F t x y) detail_s06e s.
End Args.
