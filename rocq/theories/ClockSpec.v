(** Specification of a stop watch: laps from start to stop, mean over the laps. *)
From Coq Require Import Reals ZArith List.
From Verif Require Import ClockModel.
Import ListNotations.
Open Scope Z_scope.

(** start and stop time of each lap *)
Definition lap := (Z * Z)%type.
Definition ordered (l : list lap) : Prop := Forall (fun p => fst p <= snd p) l.
Definition elapsed (l : list lap) : Z := fold_right (fun p a => snd p - fst p + a) 0 l.
(** running the watch *)
Definition measure (c : clock) (l : list lap) : clock := fold_left (fun c p => stop (start c (fst p)) (snd p)) l c.
(** mean lap in units of so many nanoseconds *)
Definition mean (unit : Z) (l : list lap) : R := (IZR (elapsed l) / INR (length l) / IZR unit)%R.
(** the name shown *)
Definition named (c : clock) (text : list Z) : Prop := length (mname c) = 24%nat /\ exists rest, mname c = text ++ 0 :: rest.
Definition no_zero (text : list Z) : Prop := Forall (fun c => c <> 0) text.
