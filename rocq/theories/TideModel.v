(** Ocean and atmospheric tide models: include/ocean_tide.hpp, include/atmospheric_tides.hpp,
    src/lib/ocean_tide/ocean_tide_potential.cpp, src/lib/atmospheric_tides/{atm_tides_append_wave,atm_tides_geopotential}.cpp.
    Coefficient matrices are objects of the matrix model, in its memory. *)
From Coq Require Import Reals ZArith List Bool.
From Verif Require Import Base StorageModel MatrixModel DoodsonModel DoodsonArgModel.
Import ListNotations.
Open Scope Z_scope.

(** the two matrices of a StokesCoeffs object *)
Record pair := mkPair { mC : mat; mS : mat }.
(** TidalConstituent: Doodson number, stokes_cos(), stokes_sin() *)
Record twave := mkTW { td : doodson; tcos : pair; tsin : pair }.

Section Sum.
  Variable A : Type.
  Variables add mul : A -> A -> A.
  Variable zero : A.

  (** include/stokes_coefficients.hpp:194-197 clear *)
  Definition clear (h : mem A) (acc : pair) : res (mem A) :=
    h1 <- fill_with A h (mC acc) zero ;; fill_with A h1 (mS acc) zero.
  (** cos.Xnm() * fc + sin.Xnm() * fs *)
  Definition term (c s : mat) (fc fs : A) : expr A := ESum (EScaled (EMat c) fc) (EScaled (EMat s) fs).
  (** ocean_tide_potential.cpp:25-28, 78-81; atm_tides_geopotential.cpp:25-28 *)
  Definition add_wave (acc : pair) (h : mem A) (x : twave * (A * A)) : res (mem A) :=
    let (w, f) := x in
    h1 <- add_assign A add mul h (mC acc) (term (mC (tcos w)) (mC (tsin w)) (fst f) (snd f)) ;;
    add_assign A add mul h1 (mS acc) (term (mS (tcos w)) (mS (tsin w)) (fst f) (snd f)).
  (** clear() followed by the loop over the waves, each with its two factors *)
  Definition evaluate (h : mem A) (acc : pair) (l : list (twave * (A * A))) : res (mem A) :=
    h0 <- clear h acc ;; fold_res (add_wave acc) l h0.
End Sum.

(** ** factors *)
(** ocean_tide_potential.cpp:14-24: gmst is the value of dso::gmst at the two epochs *)
Definition ocean_factors (F : delaunay) (gmst : R) (w : twave) : R * R :=
  let arg := argument (td w) (delaunay2doodson F gmst) in (cos arg, sin arg).
Definition with_factors (f : twave -> R * R) (l : list twave) : list (twave * (R * R)) := map (fun w => (w, f w)) l.
(** ocean_tide_potential.cpp:5-32 stokes_coeffs_impl *)
Definition ocean_coeffs (h : mem R) (acc : pair) (l : list twave) (F : delaunay) (gmst : R) : res (mem R) :=
  evaluate R Rplus Rmult 0%R h acc (with_factors (ocean_factors F gmst) l).
(** atm_tides_geopotential.cpp:4-32 *)
Definition atm_factors (F : delaunay) (gmst : R) (w : twave) : R * R :=
  let arg := (argument (td w) (delaunay2doodson F gmst) + IZR (pifac (td w)) * PI / 2)%R in (cos arg, sin arg).
Definition atm_coeffs (h : mem R) (acc : pair) (l : list twave) (F : delaunay) (gmst : R) : res (mem R) :=
  evaluate R Rplus Rmult 0%R h acc (with_factors (atm_factors F gmst) l).

(** dense matrix product with a vector (Eigen), one row *)
Fixpoint dot (r v : list R) : R :=
  match r, v with x :: r', y :: v' => (x * y + dot r' v')%R | _, _ => 0%R end.
(** the loop 77-85 reads one element of factorCos and factorSin per wave: None when there are more waves than rows *)
Fixpoint pair_up (l : list twave) (fc fs : list R) : option (list (twave * (R * R))) :=
  match l, fc, fs with
  | [], _, _ => Some []
  | w :: l', c :: fc', s :: fs' => option_map (cons (w, (c, s))) (pair_up l' fc' fs')
  | _, _, _ => None
  end.
(** ocean_tide_potential.cpp:34-88; [dm]: rows of the Doodson matrix (as constituents: the phase is 0, 60);
    [am], [ncols]: admittance matrix. The products 67-71 have an active assertion on the sizes (eigen_assert).
    Reading past the factors is undefined behaviour. *)
Definition admittance_factors (dm : list doodson) (am : list (list R)) (F : delaunay) (gmst : R) : list R * list R :=
  let theta := map (fun d => argument d (delaunay2doodson F gmst)) dm in
  (map (fun r => dot r (map cos theta)) am, map (fun r => dot r (map sin theta)) am).
Definition ocean_coeffs_admittance (h : mem R) (acc : pair) (l : list twave) (dm : list doodson) (am : list (list R))
    (ncols : nat) (F : delaunay) (gmst : R) : res (mem R) :=
  h0 <- clear R 0%R h acc ;;
  if negb (Nat.eqb ncols (length dm)) then Abort else
  let (fc, fs) := admittance_factors dm am F gmst in
  match pair_up l fc fs with
  | None => UB
  | Some t => fold_res (add_wave R Rplus Rmult acc) t h0
  end.

(** ** constructors and sizes *)
(** StokesCoeffs objects for a tide model: the accumulator and its degree and order *)
Record accum := mkAcc { amats : pair; adeg : Z; aord : Z }.
Section Build.
  Variable A : Type.
  (** include/ocean_tide.hpp:132-140, 152-162 and include/atmospheric_tides.hpp:95-103; (n, m) = max_atlas_degree *)
  Definition tide_ctor (h : mem A) (n m : Z) : res (mem A * accum) :=
    '(h1, c) <- ctor A h LwTriCol (n + 1) (n + 1) ;;
    '(h2, s) <- ctor A h1 LwTriCol (n + 1) (n + 1) ;;
    if m <? n
    then '(h3, c') <- resize A h2 c (n + 1) (n + 1) ;; '(h4, s') <- resize A h3 s (n + 1) (n + 1) ;;
         Ok (h4, mkAcc (mkPair c' s') n m)
    else Ok (h2, mkAcc (mkPair c s) n n).
  (** include/atmospheric_tides.hpp:89-92: mcs is default constructed *)
  Definition atm_default (h : mem A) : res (mem A * accum) :=
    '(h1, c) <- ctor A h LwTriCol 0 0 ;; '(h2, s) <- ctor A h1 LwTriCol 0 0 ;; Ok (h2, mkAcc (mkPair c s) 0 0).
  (** src/lib/stokes_coefficients.cpp:11-17 cresize *)
  Definition acc_cresize (h : mem A) (a : accum) (n m : Z) : res (mem A * accum) :=
    '(h1, c) <- cresize A h (mC (amats a)) (n + 1) (n + 1) ;;
    '(h2, s) <- cresize A h1 (mS (amats a)) (n + 1) (n + 1) ;;
    Ok (h2, mkAcc (mkPair c s) n m).
  (** atm_tides_append_wave.cpp:44-50; (n, m): degree and order of the new wave *)
  Definition atm_grow (h : mem A) (a : accum) (n m : Z) : res (mem A * accum) :=
    '(h1, a1) <- (if (adeg a <? n) || (aord a <? m) then acc_cresize h a n m else Ok (h, a)) ;;
    if (adeg a1 <? n) || (aord a1 <? m) then acc_cresize h1 a1 n m else Ok (h1, a1).
End Build.

(** ** ownership of the admittance model: include/ocean_tide.hpp:61, 132-216 *)
Section Owner.
  Variable M : Type.
  (** GroopsTideModel objects on the heap *)
  Inductive gblock := GLive (m : M) | GFreed.
  (** None: destroyed; otherwise the pointer gmodel *)
  Record gstate := mkGS { gobjs : list (option (option nat)); gheap : list gblock }.
  Inductive gop :=
  | GNew                       (* 132-140 *)
  | GNewWith (m : M)           (* 152-162 *)
  | GCopy (i : nat)            (* 171-173 *)
  | GMove (i : nat)            (* 176-180 *)
  | GAssign (i j : nat)        (* 183-192 *)
  | GMoveAssign (i j : nat)    (* 195-205 *)
  | GSet (i : nat) (m : M)     (* 211-216 *)
  | GUse (i : nat)             (* 225-230, 118-124: reads *gmodel if not null *)
  | GDestroy (i : nat).        (* 165-168 *)
  Definition gptr (s : gstate) (i : nat) : res (option nat) :=
    match nth_error (gobjs s) i with Some (Some p) => Ok p | _ => Illegal end.
  Definition gload (h : list gblock) (p : nat) : res M := match nth_error h p with Some (GLive m) => Ok m | _ => UB end.
  (** if (gmodel) delete gmodel *)
  Definition gfree (h : list gblock) (p : option nat) : res (list gblock) :=
    match p with None => Ok h | Some q => _ <- gload h q ;; Ok (upd h q GFreed) end.
  Definition gnew (h : list gblock) (m : M) : list gblock * nat := (h ++ [GLive m], length h)%list.
  (** (ot.gmodel) ? a new copy of what it points to : nullptr *)
  Definition gclone (h : list gblock) (p : option nat) : res (list gblock * option nat) :=
    match p with None => Ok (h, None) | Some q => m <- gload h q ;; let (h', r) := gnew h m in Ok (h', Some r) end.
  Definition gstep (s : gstate) (o : gop) : res gstate :=
    match o with
    | GNew => Ok (mkGS (gobjs s ++ [Some None]) (gheap s))
    | GNewWith m => let (h, r) := gnew (gheap s) m in Ok (mkGS (gobjs s ++ [Some (Some r)]) h)
    | GCopy i => p <- gptr s i ;; '(h, q) <- gclone (gheap s) p ;; Ok (mkGS (gobjs s ++ [Some q]) h)
    | GMove i => p <- gptr s i ;; Ok (mkGS (upd (gobjs s) i (Some None) ++ [Some p]) (gheap s))
    | GAssign i j =>
        p <- gptr s i ;; q <- gptr s j ;;
        if Nat.eqb i j then Ok s else
        h <- gfree (gheap s) p ;; '(h', r) <- gclone h q ;; Ok (mkGS (upd (gobjs s) i (Some r)) h')
    | GMoveAssign i j =>
        p <- gptr s i ;; q <- gptr s j ;;
        h <- gfree (gheap s) p ;;
        match q with
        | None => Ok (mkGS (gobjs s) h)
        | Some r => Ok (mkGS (upd (upd (gobjs s) i (Some (Some r))) j (Some None)) h)
        end
    | GSet i m =>
        p <- gptr s i ;; h <- gfree (gheap s) p ;; let (h', r) := gnew h m in
        Ok (mkGS (upd (gobjs s) i (Some (Some r))) h')
    | GUse i => p <- gptr s i ;; match p with None => Ok s | Some q => _ <- gload (gheap s) q ;; Ok s end
    | GDestroy i => p <- gptr s i ;; h <- gfree (gheap s) p ;; Ok (mkGS (upd (gobjs s) i None) h)
    end.
  Definition ginit : gstate := mkGS [] [].
  Definition grun (l : list gop) : res gstate := fold_res gstep l ginit.
End Owner.
Arguments GLive {M} _. Arguments GFreed {M}.
