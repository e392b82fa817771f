(** What a Doodson number string means, stated without the model's functions. *)
From Coq Require Import Ascii String ZArith List Bool.
From Verif Require Import Base CString DoodsonModel.
Import ListNotations.
Open Scope Z_scope.

(** The documented (GROOPS) alphabet: include/doodson.hpp:70-91, with both cases *)
Definition alphabet : list (Z * Z) :=
  combine (chars "0123456789abcdefghijklm") (zrange2 0 23) ++
  combine (chars "nopqrstuvwxyz") (zrange2 (-13) 0) ++
  combine (chars "ABCDEFGHIJKLM") (zrange2 10 23) ++
  combine (chars "NOPQRSTUVWXYZ") (zrange2 (-13) 0).
Definition denotes (c v : Z) : Prop := In (c, v) alphabet.

(** seven characters "abc.def" denote the multipliers with the +5 convention after the first *)
Definition text_denotes (s : list Z) (d : doodson) : Prop :=
  exists a b c p e f g rest, s = a :: b :: c :: p :: e :: f :: g :: rest /\ p = 46 /\
    denotes a (n0 d) /\ denotes b (n1 d + 5) /\ denotes c (n2 d + 5) /\
    denotes e (n3 d + 5) /\ denotes f (n4 d + 5) /\ denotes g (n5 d + 5) /\ pifac d = 0.

(** multipliers expressible in the notation *)
Definition representable (d : doodson) : Prop :=
  -13 <= n0 d <= 22 /\ -18 <= n1 d <= 17 /\ -18 <= n2 d <= 17 /\
  -18 <= n3 d <= 17 /\ -18 <= n4 d <= 17 /\ -18 <= n5 d <= 17.

Definition no_pi (d : doodson) : doodson := mkD (n0 d) (n1 d) (n2 d) (n3 d) (n4 d) (n5 d) 0.

(** plain ASCII bytes *)
Definition ascii7 (s : list Z) : Prop := Forall (fun c => 0 <= c < 128) s.
(** decimal digits *)
Definition digit (c v : Z) : Prop := In (c, v) (combine (chars "0123456789") (zrange2 0 10)).

(** speeds of the six Doodson variables in 1e-11 degrees per hour: tau, s, h, p, N', ps
    (mean lunar time and mean longitudes; Doodson 1921, as tabulated by Schureman) *)
Definition speed (d : doodson) : Z :=
  n0 d * 1449205212 + n1 d * 54901653 + n2 d * 4106864 + n3 d * 464183 + n4 d * 220641 + n5 d * 196.
