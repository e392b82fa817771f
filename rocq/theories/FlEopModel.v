(** Interpolation of Earth orientation parameters with rounding: src/lib/eop/lagrange_interpolation.cpp, approx_dut1.cpp. Every
    operation may round (FlModel); factors that the code computes once for all parameters may differ between them here. *)
From Coq Require Import Reals ZArith List Bool.
From Verif Require Import Base FlModel EopModel.
Import ListNotations.
Open Scope R_scope.

Section Eop.
  Variable T : Type.
  Variable ltb : T -> T -> bool.
  Variable days : T -> R.
  Variable leap : T -> R.
  (** a.diff<FractionalDays>(b).days() (external): wrong by at most c units of 2^-53 of the difference, or of g if that is more *)
  Variables c g : R.
  Notation rec := (rec T). Notation rt := (rt T).
  Definition diff_run (a b : T) (v : R) : Prop := Rabs (v - (days a - days b)) <= c * u * Rmax (Rabs (days a - days b)) g.

  (** lagrange_interpolation.cpp:97-119: nom[j], dom[j]; i: index of the first element of l *)
  Fixpoint product_run (diff : rec -> R -> Prop) (j i : nat) (l : list rec) (p v : R) : Prop :=
    match l with
    | [] => v = p
    | r :: l' => if Nat.eqb j i then product_run diff j (S i) l' p v
                 else exists d q, diff r d /\ near (p * d) q /\ product_run diff j (S i) l' q v
    end.
  Definition factor_run (l : list rec) (t : T) (j : nat) (r : rec) (v : R) : Prop :=
    exists n d, product_run (fun k => diff_run t (rt k)) j 0 l 1 n /\ product_run (fun k => diff_run (rt r) (rt k)) j 0 l 1 d /\ near (n / d) v.
  (** lines 121-133; y: the parameter *)
  Fixpoint sums_run (all : list rec) (t : T) (y : rec -> R -> Prop) (i : nat) (l : list rec) (s v : R) : Prop :=
    match l with
    | [] => v = s
    | r :: l' => exists q f w s', y r q /\ factor_run all t i r f /\ near (q * f) w /\ near (s + w) s' /\ sums_run all t y (S i) l' s' v
    end.
  Definition accumulate_run (l : list rec) (t : T) (y : rec -> R -> Prop) (v : R) : Prop := sums_run l t y 0 l 0 v.
  (** lines 58-83, approx_dut1.cpp:30-45 *)
  Definition linear_run (a b : rec) (t : T) (y : rec -> R -> Prop) (v : R) : Prop :=
    exists d10 d1 d0 f0 f1 ya yb p q, diff_run (rt b) (rt a) d10 /\ diff_run (rt b) t d1 /\ diff_run t (rt a) d0 /\ near (d1 / d10) f0 /\ near (d0 / d10) f1 /\
      y a ya /\ y b yb /\ near (ya * f0) p /\ near (yb * f1) q /\ near (p + q) v.
  (** a parameter as stored; UT1-TAI *)
  Definition stored (f : rec -> R) (r : rec) (v : R) : Prop := v = f r.
  Definition ut1 (r : rec) (v : R) : Prop := near (dut T r - rdat T r) v.
  (** lines 52-55, 74-82, 124-136 *)
  Definition fill_run (eop : rec) (t : T) (rule : (rec -> R -> Prop) -> R -> Prop) (o : rec) : Prop :=
    rt o = t /\ rule (stored (xp T)) (xp T o) /\ rule (stored (yp T)) (yp T o) /\ (exists s, rule ut1 s /\ near (s + leap t) (dut T o)) /\
    rule (stored (lod T)) (lod T o) /\ rule (stored (dX T)) (dX T o) /\ rule (stored (dY T)) (dY T o) /\ rdat T o = rdat T eop /\ xrt T o = 0 /\ yrt T o = 0.
  Open Scope Z_scope.
  (** lines 5-139, a call that returns *)
  Definition interpolate_run (s : series T) (t : T) (eop : rec) (degree : Z) (st : status) (o : rec) (s' : series T) : Prop :=
    degree <= MAX_DEGREE /\ exists it, hunt T ltb s t = Ok it /\ s' = mkSer T (mvec T s) (Some it) /\
    let len := length (mvec T s) in
    if Nat.eqb it 0 then exists r, nth_error (mvec T s) 0 = Some r /\ st = Prior /\ o = with_epoch T r t
    else if Nat.eqb it len then exists r, nth_error (mvec T s) (it - 1) = Some r /\ st = Later /\ o = with_epoch T r t
    else let ndp := points (Z.of_nat it) (Z.of_nat len) degree in
      if ndp =? 1 then exists a b, nth_error (mvec T s) (it - 1) = Some a /\ nth_error (mvec T s) it = Some b /\ st = Linear /\ fill_run eop t (linear_run a b t) o
      else 0 <= ndp /\ 2 * ndp <= MAX_DEGREE + 1 /\ st = (if ndp * 2 =? degree + 1 then Requested else Decreased) /\
           fill_run eop t (accumulate_run (firstn (2 * Z.to_nat ndp) (skipn (it - Z.to_nat ndp) (mvec T s))) t) o.
  (** approx_dut1.cpp:3-49 *)
  Definition approx_dut1_run (s : series T) (t : T) (st : status) (v : R) (s' : series T) : Prop :=
    exists it, hunt T ltb s t = Ok it /\ s' = mkSer T (mvec T s) (Some it) /\
    if Nat.eqb it 0 then exists r, nth_error (mvec T s) 0 = Some r /\ st = Prior /\ v = dut T r
    else if Nat.eqb it (length (mvec T s)) then exists r, nth_error (mvec T s) (it - 1) = Some r /\ st = Later /\ v = dut T r
    else exists a b, nth_error (mvec T s) (it - 1) = Some a /\ nth_error (mvec T s) it = Some b /\ st = Linear /\
           exists w, linear_run a b t ut1 w /\ near (w + leap t) v.
End Eop.
