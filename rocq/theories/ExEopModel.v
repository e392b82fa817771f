(** The example program examples/eop_interpolation.cpp. Real arithmetic. Epochs as in FundModel. The file is read by
    parse_iers_C04 (C17, C18); its result is an input here. Printing is the list of the records printed. *)
From Coq Require Import Reals ZArith List Bool.
From Verif Require Import Base DoodsonArgModel FundModel EopModel EtvModel.
Import ListNotations.
Open Scope R_scope.

(** ** datetime library *)
(** operator<; add_seconds, which keeps the fraction within the day *)
Definition earlier (a b : epoch) : bool := if Rlt_dec (mjd a) (mjd b) then true else false.
Definition add_seconds (t : epoch) (s : R) : epoch :=
  let x := mfrac t + s / 86400 in mkT (mday t + Int_part x) (x - IZR (Int_part x)).

(** what is passed on to the deop functions: the array fargs, lines 34, 56 *)
Definition fargs (t : epoch) : delaunay :=
  match fundarg_mjd t with [l; lp; f; d; om] => mkDel l lp f d om | _ => mkDel 0 0 0 0 0 end.
(** line 31: the corrections applied by src/lib/eop/regularize.cpp:12-16 *)
Definition zonal_at (t : epoch) : R * R := let d := deop_zonal_tide (fargs t) in (zut1 d, zlod d).

Section Example.
  (** dso::dat at the UTC date of a TT epoch; MjdEpoch::tt2ut1 *)
  Variable leap : epoch -> R.
  Variable tt2ut1 : epoch -> R -> epoch.

  (** what one pass of the loop prints, lines 47-48 and 79-80 *)
  Record line := mkLine { raw : rec epoch; cor : rec epoch }.
  (** lines 59-66, and 69-76 *)
  Definition add_variation (d : eop) (e : rec epoch) : rec epoch :=
    mkR epoch (rt epoch e) (xp epoch e + dxp d * 1e-6) (yp epoch e + dyp d * 1e-6) (dut epoch e + dut1 d * 1e-6) (lod epoch e + dlod d * 1e-6)
      (dX epoch e) (dY epoch e) (rdat epoch e) (xrt epoch e) (yrt epoch e).
  (** include/eop.hpp:242-245 *)
  Definition out_of_bounds (st : status) : bool := match st with Prior | Later => true | _ => false end.
  (** lines 40-80; None: the return in line 43. The degree is the default, include/eop.hpp:372 *)
  Definition body (s : series epoch) (t : epoch) (eops : rec epoch) : res (option (line * series epoch)) :=
    '(st, r, s1) <- interpolate epoch earlier mjd leap s t eops 5 ;;
    if out_of_bounds st then Ok None else
    '(_, u, s2) <- approx_dut1 epoch earlier mjd leap s1 t ;;
    let g := gmst t (tt2ut1 t u) in
    let f := fargs t in
    Ok (Some (mkLine r (add_variation (deop_ocean_tide f g) (add_variation (deop_libration f g) r)), s2)).

  (** the program has returned, or is still in the loop *)
  Inductive ending := Exit (code : Z) | Running.
  (** include/eop.hpp:253, 256: undefined for an empty series *)
  Definition first_epoch (s : series epoch) : res epoch := match mvec epoch s with r :: _ => Ok (rt epoch r) | [] => UB end.
  Definition last_epoch (s : series epoch) : res epoch :=
    match nth_error (mvec epoch s) (length (mvec epoch s) - 1) with Some r => Ok (rt epoch r) | None => UB end.
  (** lines 39-87: at most [fuel] passes *)
  Fixpoint loop (fuel : nat) (s : series epoch) (t : epoch) (eops : rec epoch) : res (ending * list line) :=
    l <- last_epoch s ;;
    if earlier t l then
      match fuel with
      | O => Ok (Running, [])
      | S k =>
          b <- body s t eops ;;
          match b with
          | None => Ok (Exit 1, [])
          | Some (p, s') => '(e, out) <- loop k s' (add_seconds t 30) (cor p) ;; Ok (e, p :: out)
          end
      end
    else Ok (Exit 0, []).
  (** lines 18-87, called with one argument; [parsed]: the series read, None if parse_iers_C04 fails; [eops]: line 37 *)
  Definition main (fuel : nat) (parsed : option (series epoch)) (eops : rec epoch) : res (ending * list line) :=
    match parsed with
    | None => Ok (Exit 1, [])
    | Some s =>
        if negb (Nat.eqb (length (mvec epoch s)) 9) then Abort else
        let s := regularize epoch zonal_at s in
        t <- first_epoch s ;;
        loop fuel s t eops
    end.
End Example.
