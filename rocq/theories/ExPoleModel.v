(** The example program examples/pole_tide_displacement.cpp. Real arithmetic. Epochs as in FundModel. The series is read by
    parse_iers_C04 (C17, C18) and is an input here, as are the spherical coordinates of the sites (geodesy library). *)
From Coq Require Import Ascii String Reals ZArith List Bool.
From Verif Require Import Base FundModel EopModel PoleModel SiteModel ExEopModel.
Import ListNotations.
Open Scope R_scope.

(** line 43 *)
Definition names : list string := ["svac"; "thub"; "diob"; "krwb"; "belb"; "adhc"]%string.
(** lines 87-89 *)
Record oline := mkO { oname : string; otime : epoch; osolid : vec; oocean : vec }.

Section Example.
  (** dso::dat at the UTC date of a TT epoch; years since J2000 of an epoch; geodetic2lvlh at a site; std::from_chars to double *)
  Variable leap : epoch -> R.
  Variable years : epoch -> R.
  Variable lvlh : site -> vec * vec * vec.
  Variable sdbl : list Z -> option R * list Z.
  (** default arguments, include/pole_tide.hpp:337-339 *)
  Variables Re GM Omega G ge : R.

  (** lines 75-92: [cf] and [name] point into their arrays; behind the end they must not be used *)
  Fixpoint sites (t : epoch) (x y : R) (sta : list site) (cf : list desai) (name : list string) : res (list oline) :=
    match sta with
    | [] => Ok []
    | s :: sta' =>
        match cf, name with
        | c :: cf', n :: name' =>
            r <- sites t x y sta' cf' name' ;;
            Ok (mkO n t (solid_deformation (years t) x y (slat s) (slon s)) (ocean_deformation (years t) x y c (lvlh s) Re GM Omega G ge) :: r)
        | _, _ => UB
        end
    end.
  (** lines 67-97: at most [fuel] passes; [eops]: the record of line 69 *)
  Fixpoint loop (fuel : nat) (s : series epoch) (tt last : epoch) (eops : rec epoch) (sta : list site) (coef : list desai) : res (ending * list oline) :=
    if earlier tt last then
      match fuel with
      | O => Ok (Running, [])
      | S k =>
          '(st, r, s') <- EopModel.interpolate epoch earlier mjd leap s tt eops 5 ;;
          if out_of_bounds st then Ok (Exit 1, []) else
          o <- sites tt (EopModel.xp epoch r) (EopModel.yp epoch r) sta coef names ;;
          '(e, out) <- loop k s' (add_seconds tt 30) last eops sta coef ;;
          Ok (e, (o ++ out)%list)
      end
    else Ok (Exit 0, []).
  (** lines 13-97, called with two arguments; [file]: the lines of the first, [parsed]: the series of the second, None on failure *)
  Definition main (fuel : nat) (sta : list site) (file : option (list (list Z))) (start last : epoch) (parsed : option (series epoch)) (eops : rec epoch) : res (ending * list oline) :=
    '(coef, code) <- site_coeffs sdbl file sta ;;
    if negb (code =? 0)%Z then Ok (Exit 1, []) else
    match parsed with
    | None => Ok (Exit 1, [])
    | Some s => loop fuel s start last eops sta coef
    end.
End Example.
