(** What C80 talks about: records of the same epochs side by side; time scales. *)
From Coq Require Import Reals ZArith List.
Import ListNotations.
Open Scope Z_scope.

Section Spec.
  Variables (E O A R P V ST : Type).
  (** [one st i a r p st' v]: at the orbit record i, with reference a, rotation r and EOPs p, the state st becomes st' and the result is v *)
  Variable one : ST -> E * O -> E * A -> option (E * R) -> option (E * P) -> ST -> V -> Prop.
  (** every orbit record with the reference, rotation and EOP records of the same number; the lines printed *)
  Inductive epochs : ST -> list (E * O) -> list (E * A) -> list (E * R) -> list (E * P) -> list (E * A * V) -> Prop :=
  | over st accs rots eops : epochs st [] accs rots eops []
  | next st i orb a accs rots eops st' v lines : fst a = fst i -> one st i a (hd_error rots) (hd_error eops) st' v ->
      epochs st' orb accs (tl rots) (tl eops) lines -> epochs st (i :: orb) (a :: accs) rots eops ((fst i, snd a, v) :: lines).
  Variable call : nat -> ST -> E * O -> option P -> option R -> option ST.
  Variable value : ST -> E * O -> option P -> option R -> V.
  (** [strict]: rotation and EOPs are those of the epoch of the orbit record *)
  Variable strict : bool.
  Definition of_epoch {X} (i : E * O) (r : option (E * X)) (x : X) : Prop := exists e, r = Some (e, x) /\ (strict = true -> e = fst i).
  (** one call *)
  Definition one_03 st i (a : E * A) (r : option (E * R)) (p : option (E * P)) st' v : Prop := call 0 st i None None = Some st' /\ v = value st' i None None.
  (** rotation, two calls *)
  Definition one_04 st i (a : E * A) (r : option (E * R)) (p : option (E * P)) st' v : Prop :=
    exists x st1, of_epoch i r x /\ call 0 st i None (Some x) = Some st1 /\ call 1 st1 i None (Some x) = Some st' /\ v = value st' i None (Some x).
  (** EOPs, one call, rotation *)
  Definition one_05 st i (a : E * A) (r : option (E * R)) (p : option (E * P)) st' v : Prop :=
    exists x y, of_epoch i r x /\ of_epoch i p y /\ call 0 st i (Some y) None = Some st' /\ v = value st' i (Some y) (Some x).
  (** EOPs, two calls, rotation *)
  Definition one_06 st i (a : E * A) (r : option (E * R)) (p : option (E * P)) st' v : Prop :=
    exists x y st1, of_epoch i r x /\ of_epoch i p y /\ call 0 st i (Some y) None = Some st1 /\ call 1 st1 i (Some y) None = Some st' /\ v = value st' i (Some y) (Some x).
  (** two calls, rotation *)
  Definition one_08 st i (a : E * A) (r : option (E * R)) (p : option (E * P)) st' v : Prop :=
    exists x st1, of_epoch i r x /\ call 0 st i None None = Some st1 /\ call 1 st1 i None None = Some st' /\ v = value st' i None (Some x).
  (** one call, rotation *)
  Definition one_09 st i (a : E * A) (r : option (E * R)) (p : option (E * P)) st' v : Prop :=
    exists x, of_epoch i r x /\ call 0 st i None None = Some st' /\ v = value st' i None (Some x).
End Spec.
(** GPS time is TAI - 19 s, TT is TAI + 32.184 s; UTC = TAI - leap; UT1 = UTC + dUT1 *)
Definition tai_of (gps : R) : R := (gps + 19)%R.
Definition tt_of (gps : R) : R := (tai_of gps + 32.184)%R.
Definition ut1_of (leap : R -> R) (dut1 gps : R) : R := (tai_of gps - leap (tai_of gps) + dut1)%R.
