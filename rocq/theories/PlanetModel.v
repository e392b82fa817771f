(** Planets and ephemeris kernels: include/planets.hpp and src/lib/planets. The CSPICE library is external: its
    functions are parameters, its list of loaded kernels is described below. Real arithmetic in the conversions of
    units. fprintf is not modelled. *)
From Coq Require Import Reals ZArith String List Bool.
From Verif Require Import Base CString Vec.
Import ListNotations.
Open Scope Z_scope.

(** enum class Planet : char: planets.hpp:19-28. Every char is a value of the type. *)
Definition EARTH := 0. Definition MOON := 1. Definition SUN := 2. Definition MERCURY := 3.
Definition VENUS := 4. Definition MARS := 5. Definition JUPITER := 6. Definition SATURN := 7.

(** ** planet_to_naif_id.cpp *)
(** lines 16-24 *)
Definition planet_table : list (Z * Z) :=
  [(EARTH, 399); (MOON, 301); (SUN, 10); (MERCURY, 199); (VENUS, 299); (MARS, 499); (JUPITER, 599); (SATURN, 699)].
Definition int_max : Z := 2147483647.
(** lines 27-33: id and status *)
Definition planet_to_naif_id (p : Z) : Z * Z :=
  let id := match find (fun e => fst e =? p) planet_table with Some e => snd e | None => int_max end in
  (id, if id =? int_max then 1 else 0).

(** the digits of a number that is not negative; the fuel is the number of bits *)
Fixpoint digits (fuel : nat) (n : Z) (after : list Z) : list Z :=
  match fuel with
  | O => after
  | S f => if n <? 10 then 48 + n :: after else digits f (n / 10) (48 + n mod 10 :: after)
  end.
(** text written by std::to_chars for an int *)
Definition decimal (n : Z) : list Z := if n <? 0 then 45 :: digits 32 (- n) [] else digits 32 n [].

Section Text.
  (** contents left behind by a failing std::to_chars are unspecified *)
  Variable junk : Z -> Z.
  (** std::memset(buf, 0, n); a negative n becomes a huge size_t *)
  Definition memset0 (buf : list Z) (n : Z) : res (list Z) :=
    if (0 <=? n) && (n <=? Z.of_nat (length buf)) then Ok (repeat 0 (Z.to_nat n) ++ skipn (Z.to_nat n) buf) else UB.
  (** std::to_chars(buf, buf + n, id): text without terminator and status *)
  Definition to_chars (buf : list Z) (n id : Z) : list Z * bool :=
    let d := decimal id in
    if Z.of_nat (length d) <=? n then (d ++ skipn (length d) buf, true)
    else (map junk (zrange n) ++ skipn (Z.to_nat n) buf, false).
  (** lines 35-48: buffer and status *)
  Definition planet_to_naif_idstr (p : Z) (buf : list Z) (bufsz : Z) : res (list Z * Z) :=
    b <- memset0 buf bufsz ;;
    let '(id, st) := planet_to_naif_id p in
    if negb (st =? 0) then Ok (b, 1) else
    let '(b', ok) := to_chars b bufsz id in
    Ok (b', if ok then 0 else 2).
End Text.

(** ** planet_pos.cpp, planet_state.cpp, kernel_consts.cpp *)
Section Ephemeris.
  Variable junk : Z -> Z.
  (** unitim_c(epoch, from, to) *)
  Variable unitim : R -> list Z -> list Z -> R.
  (** spkezp_c(target, et, frame, correction, observer): position *)
  Variable spkezp : Z -> R -> list Z -> list Z -> Z -> v3.
  (** spkezr_c(target, et, frame, correction, observer): position and velocity *)
  Variable spkezr : list Z -> R -> list Z -> list Z -> list Z -> v3 * v3.
  (** bodvrd_c(body, item, 1, ...) *)
  Variable bodvrd : list Z -> list Z -> R.
  (** mjdtt2et: planets.hpp:68-71; the argument is tt.julian_date() *)
  Definition mjdtt2et (jd : R) : R := unitim jd (chars "JDTDT") (chars "ET").
  (** planet_pos: lines 3-22 with j2planet_pos_from, planets.hpp:94-100; None: pos is left alone *)
  Definition planet_pos (p : Z) (jd : R) : option v3 * Z :=
    let '(pid, st) := planet_to_naif_id p in
    if negb (st =? 0) then (None, 2) else
    (Some (vmul 1000 (spkezp pid (mjdtt2et jd) (chars "J2000") (chars "NONE") 399)), 0).
  (** planet_state: lines 3-36 with j2planet_state_from, planets.hpp:128-134; trg is not initialised *)
  Definition planet_state (trg : list Z) (p : Z) (jd : R) : res (option (v3 * v3) * Z) :=
    ' (b, st) <- planet_to_naif_idstr junk p trg 8 ;;
    if negb (st =? 0) then Ok (None, 1) else
    t <- c_str b ;;
    let s := spkezr t (mjdtt2et jd) (chars "J2000") (chars "NONE") (chars "399") in
    Ok (Some (vmul 1000 (fst s), vmul 1000 (snd s)), 0).
  (** sun_moon_gm: lines 4-20 after loading the kernel *)
  Definition sun_moon_gm (use_si : bool) : R * R :=
    let s := bodvrd (chars "SUN") (chars "GM") in let m := bodvrd (chars "MOON") (chars "GM") in
    if use_si then (s * 1000000000, m * 1000000000)%R else (s, m).
End Ephemeris.

(** ** kernel.cpp *)
(** std::strncmp(file, w, strlen(w)) == 0 *)
Fixpoint starts (w file : list Z) : bool :=
  match w, file with [], _ => true | a :: w', b :: f' => (a =? b) && starts w' f' | _ :: _, [] => false end.
Definition FILLEN : Z := 128.
Section Kernels.
  (** The loaded kernels as ktotal_c/kdata_c list them: file names in the order of loading. furnsh_c adds the name
      and, for a meta-kernel, the names it contains ([parts]); loading a kernel again adds it again. A file that cannot be
      read ends the program (default error action of CSPICE). The limit of 5300 kernels is not modelled;
      file names do not end in blanks. *)
  Variable parts : list Z -> list (list Z).
  Variable readable : list Z -> bool.
  Definition furnsh (k : list Z) (loaded : list (list Z)) : res (list (list Z)) :=
    if readable k then Ok (loaded ++ k :: parts k) else Abort.
  (** kdata_c: the name, cut off if the array is too short for it *)
  Definition kdata (name : list Z) : list Z := firstn (Z.to_nat (FILLEN - 1)) name.
  (** lines 10-33 *)
  Definition load_if_unloaded (kernel : list Z) (loaded : list (list Z)) : res (list (list Z)) :=
    if existsb (fun f => starts kernel (kdata f)) loaded then Ok loaded else furnsh kernel loaded.
End Kernels.
