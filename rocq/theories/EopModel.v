(** Earth orientation series: storage, interpolation, regularisation; include/eop.hpp,
    src/lib/eop/{lagrange_interpolation,approx_dut1,regularize}.cpp *)
From Coq Require Import Reals ZArith List Bool.
From Verif Require Import Base.
Import ListNotations.
Open Scope Z_scope.

Section Eop.
  (** Epochs (dso::MjdEpoch, external): a type with a strict comparison and a position in days, so that
      [a.diff<FractionalDays>(b).days()] is [days a - days b]. *)
  Variable T : Type.
  Variable ltb : T -> T -> bool.
  Variable days : T -> R.
  (** dso::dat(modified_julian_day(t.tt2utc().imjd())): leap seconds at a TT epoch (external) *)
  Variable leap : T -> R.

  (** include/eop.hpp:121-139 EopRecord *)
  Record rec := mkR { rt : T; xp : R; yp : R; dut : R; lod : R; dX : R; dY : R; rdat : R; xrt : R; yrt : R }.

  (** include/eop.hpp:233-239 EopInterpolationResult *)
  Inductive status := Prior | Later | Linear | Decreased | Requested.

  (** include/eop.hpp:185-201: the vector and the cached iterator. [Some k]: the iterator at position k of
      this vector (k = size: end); [None]: an iterator that does not belong to the vector's present elements. *)
  Record series := mkSer { mvec : list rec; last_it : option nat }.

  (** include/eop.hpp:197 (the default member initialiser of last_it) *)
  Definition empty : series := mkSer [] (Some 0%nat).
  (** include/eop.hpp:294 push_back: at least the end iterator is invalidated; as a reallocation is not excluded
      every iterator counts as invalidated *)
  Definition push_back (s : series) (r : rec) : series := mkSer (mvec s ++ [r]) None.
  (** include/eop.hpp:250 clear *)
  Definition clear (s : series) : series := mkSer [] None.
  (** include/eop.hpp:296-298 reset_vec_iterator *)
  Definition reset (s : series) (offset : Z) : res series :=
    if offset <? 0 then Ok (mkSer (mvec s) (Some (length (mvec s))))
    else if offset <=? Z.of_nat (length (mvec s)) then Ok (mkSer (mvec s) (Some (Z.to_nat offset))) else UB.
  (** implicit copy constructor: the iterator of the copy refers to the vector of the original *)
  Definition copy (s : series) : series := mkSer (mvec s) None.

  (** include/eop.hpp:401-412 upper_bound: first position whose record is later than t (contract of
      std::upper_bound on a sorted range) *)
  Fixpoint upper_bound (l : list rec) (t : T) : nat :=
    match l with
    | [] => O
    | r :: l' => if ltb t (rt r) then O else S (upper_bound l' t)
    end.

  (** src/lib/eop/lagrange_interpolation.cpp:10-21, approx_dut1.cpp:6-17 *)
  Definition hunt (s : series) (t : T) : res nat :=
    match last_it s with
    | None => UB
    | Some k =>
        if negb (Nat.eqb k 0) && negb (Nat.eqb k (length (mvec s))) then
          match nth_error (mvec s) (k - 1), nth_error (mvec s) k with
          | Some a, Some b =>
              if negb (negb (ltb (rt a) t) && ltb (rt b) t) then Ok (upper_bound (mvec s) t) else Ok k
          | _, _ => UB
          end
        else Ok (upper_bound (mvec s) t)
    end.

  (** src/lib/eop/lagrange_interpolation.cpp:43, 46-47: not enough points on a side *)
  Definition bad (it len ndp : Z) : bool := (it - ndp <? 0) || (len <=? it + (ndp - 1)).
  (** lines 46-49 *)
  Fixpoint shrink (it len : Z) (n : nat) : Z :=
    match n with
    | O => 0
    | S k => if bad it len (Z.of_nat n) then shrink it len k else Z.of_nat n
    end.
  (** lines 41-50; the division truncates *)
  Definition points (it len degree : Z) : Z :=
    let w := Z.quot (degree + 1) 2 in
    if bad it len w then shrink it len (Z.to_nat (w - 1)) else w.

  Definition MAX_DEGREE : Z := 9.

  Open Scope R_scope.
  (** lines 97-119: the factors nom[j] and dom[j] over the nodes [l], node j left out *)
  Definition product (f : rec -> R) (l : list rec) (j : nat) : R :=
    fold_left (fun p kr => if Nat.eqb j (fst kr) then p else p * f (snd kr)) (combine (seq 0 (length l)) l) 1.
  Definition factor (l : list rec) (t : T) (j : nat) (r : rec) : R :=
    product (fun k => days t - days (rt k)) l j / product (fun k => days (rt r) - days (rt k)) l j.
  (** lines 121-133: the accumulated sum of one parameter *)
  Definition accumulate (l : list rec) (t : T) (v : rec -> R) : R :=
    fold_left (fun a jr => a + v (snd jr) * factor l t (fst jr) (snd jr)) (combine (seq 0 (length l)) l) 0.

  (** lines 58-83 *)
  Definition linear (a b : rec) (t : T) (v : rec -> R) : R :=
    let dx1x0 := days (rt b) - days (rt a) in
    v a * ((days (rt b) - days t) / dx1x0) + v b * ((days t - days (rt a)) / dx1x0).

  Definition with_epoch (r : rec) (t : T) : rec :=
    mkR t (xp r) (yp r) (dut r) (lod r) (dX r) (dY r) (rdat r) (xrt r) (yrt r).
  (** the output record when every parameter comes from one rule [v]; DAT of the caller's record is left alone *)
  Definition fill (eop : rec) (t : T) (v : (rec -> R) -> R) : rec :=
    mkR t (v xp) (v yp) (v (fun r => dut r - rdat r) + leap t) (v lod) (v dX) (v dY) (rdat eop) 0 0.

  Open Scope Z_scope.
  (** src/lib/eop/lagrange_interpolation.cpp:5-139; [eop]: the caller's record before the call *)
  Definition interpolate (s : series) (t : T) (eop : rec) (degree : Z) : res (status * rec * series) :=
    if MAX_DEGREE <? degree then Abort else
    it <- hunt s t ;;
    let s' := mkSer (mvec s) (Some it) in
    let len := length (mvec s) in
    if Nat.eqb it 0 then
      match nth_error (mvec s) 0 with Some r => Ok (Prior, with_epoch r t, s') | None => UB end
    else if Nat.eqb it len then
      match nth_error (mvec s) (it - 1) with Some r => Ok (Later, with_epoch r t, s') | None => UB end
    else
      let ndp := points (Z.of_nat it) (Z.of_nat len) degree in
      if ndp =? 1 then
        match nth_error (mvec s) (it - 1), nth_error (mvec s) it with
        | Some a, Some b => Ok (Linear, fill eop t (linear a b t), s')
        | _, _ => UB
        end
      else if ndp <? 0 then UB (* i != stop is never met *)
      else if MAX_DEGREE + 1 <? 2 * ndp then UB (* beyond the work array *)
      else
        let nodes := firstn (2 * Z.to_nat ndp) (skipn (it - Z.to_nat ndp) (mvec s)) in
        Ok (if ndp * 2 =? degree + 1 then Requested else Decreased, fill eop t (accumulate nodes t), s').

  (** src/lib/eop/approx_dut1.cpp:3-49 *)
  Definition approx_dut1 (s : series) (t : T) : res (status * R * series) :=
    it <- hunt s t ;;
    let s' := mkSer (mvec s) (Some it) in
    if Nat.eqb it 0 then
      match nth_error (mvec s) 0 with Some r => Ok (Prior, dut r, s') | None => UB end
    else if Nat.eqb it (length (mvec s)) then
      match nth_error (mvec s) (it - 1) with Some r => Ok (Later, dut r, s') | None => UB end
    else
      match nth_error (mvec s) (it - 1), nth_error (mvec s) it with
      | Some a, Some b => Ok (Linear, (linear a b t (fun r => dut r - rdat r) + leap t)%R, s')
      | _, _ => UB
      end.

  (** deop_zonal_tide at the fundamental arguments of an epoch (src/lib/eop/zonal_tides.cpp; a parameter here):
      UT1 and LOD corrections in microseconds *)
  Variable zonal : T -> R * R.
  (** src/lib/eop/regularize.cpp:4-23 *)
  Definition regularize_impl (addremove : Z) (s : series) : series :=
    let f := if 0 <? addremove then (1 / 1000000)%R else (- (1 / 1000000))%R in
    mkSer (map (fun r => let (u, l) := zonal (rt r) in
      mkR (rt r) (xp r) (yp r) (dut r + u * f)%R (lod r + l * f)%R (dX r) (dY r) (rdat r) (xrt r) (yrt r)) (mvec s)) (last_it s).
  Definition regularize := regularize_impl (-1).
  Definition deregularize := regularize_impl 1.
End Eop.
