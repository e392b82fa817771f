(** The coordinates of the pole and the locator in binary64: src/lib/iau/xycip06a_xy.cpp:14848-14876, src/lib/iau/s06.cpp:350-365,
    include/fundarg.hpp, for the computed number of centuries (datetime library). *)
From Coq Require Import Reals ZArith List.
From Verif Require Import Base KahanModel FlModel FlFloatModel FlCipModel.
Import ListNotations.

Section Doubles.
  (** std::sin, std::cos, std::fmod; sec2rad and D2PI of the geodesy library *)
  Variables dsin dcos dsec : double -> double.
  Variable dfmod : double -> double -> double.
  Variable d2pi : double.
  Definition at_t (t : double) (e : expr) : double := exec dsin dcos dsec (fun _ => t) e.
  (** fundarg.hpp:61-323 *)
  Definition lunisolar64 (t : double) (e : expr) : double := dsec (dfmod (at_t t e) (of_int 1296000)).
  Definition planetary64 (t : double) (e : expr) : double := dfmod (at_t t e) d2pi.
  (** xycip06a_xy.cpp:14854-14862, s06.cpp:355-363 *)
  Definition arguments64 (t : double) : list double := map (lunisolar64 t) lunisolare ++ map (planetary64 t) planetarye ++ [at_t t fapa03e].
  Definition env64 (F : list double) (t x y : double) (i : nat) : double := nth i (F ++ [t; x; y]) dzero.
  (** xycip06a_xy.cpp:14848-14876 *)
  Definition xycip64 (t : double) : res (double * double) :=
    ' (ex, ey) <- detail_xycip06ae ;;
    let E := env64 (arguments64 t) t dzero dzero in
    Ok (exec dsin dcos dsec E (Sec (Mul ex (Dec 1 6))), exec dsin dcos dsec E (Sec (Mul ey (Dec 1 6)))).
  (** s06.cpp:350-365 *)
  Definition s06_64 (t x y : double) : double := exec dsin dcos dsec (env64 (arguments64 t) t x y) detail_s06e.
End Doubles.
