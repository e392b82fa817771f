(** Regularisation of a series in binary64, src/lib/eop/regularize.cpp, and the test test/unit_tests/eop_regularize.cpp. Rounding to
    nearest even without overflow. The corrections of deop_zonal_tide are those of a function of the epoch, as in EopModel. *)
From Coq Require Import Reals ZArith List Bool.
From Flocq Require Import Core.Core.
From Verif Require Import EopModel.
Import ListNotations.
Open Scope R_scope.

Definition rnd (x : R) : R := round radix2 (FLT_exp (-1074) 53) ZnearestE x.
Section Series.
  Variable T : Type.
  Variable zonal : T -> R * R.
  (** the compiler may or may not make one operation of lines 18 and 19 each *)
  Variable fused : bool.
  (** line 9 *)
  Definition factor (addremove : Z) : R := if (0 <? addremove)%Z then rnd (1 / 10 ^ 6) else - rnd (1 / 10 ^ 6).
  (** lines 18, 19 *)
  Definition plus64 (x c f : R) : R := if fused then rnd (x + c * f) else rnd (x + rnd (c * f)).
  (** lines 4-23 *)
  Definition regularize64 (addremove : Z) (l : list (rec T)) : list (rec T) :=
    let f := factor addremove in
    map (fun r => let (u, v) := zonal (rt T r) in
      mkR T (rt T r) (xp T r) (yp T r) (plus64 (dut T r) u f) (plus64 (lod T r) v f) (dX T r) (dY T r) (rdat T r) (xrt T r) (yrt T r)) l.

  (** ** the test; the comparison of epochs is equality *)
  Definition same_members (a b : rec T) : Prop := rt T a = rt T b /\ xp T a = xp T b /\ yp T a = yp T b /\ dX T a = dX T b /\ dY T a = dY T b.
  (** lines 28-41: the assertions for a record and its copy *)
  Definition assert1 (c o : rec T) : Prop := same_members c o /\ dut T c <> dut T o /\ lod T c <> lod T o.
  (** lines 49-70 *)
  Definition close (a b : R) : Prop := Rabs (rnd (a - b)) < rnd (1 / 10 ^ 15).
  Definition assert2 (c o : rec T) : Prop := same_members c o /\ close (dut T c) (dut T o) /\ close (lod T c) (lod T o).
  (** lines 25-41, and 43-71: all assertions hold *)
  Definition first_part (l : list (rec T)) : Prop := Forall2 assert1 (regularize64 (-1) l) l.
  Definition second_part (l : list (rec T)) : Prop := Forall2 assert2 (regularize64 1 (regularize64 (-1) l)) l.
End Series.
