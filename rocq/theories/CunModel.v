(** Acceleration and gravity gradient: src/lib/gravity/sh_cunningham_normalized_gradient.cpp.
    Real arithmetic. The static table of factors (13-48) is represented by its final contents;
    all int expressions stay below 2^31 because the table has 201 rows. fprintf is not modelled. *)
From Coq Require Import Reals ZArith List Bool.
From Verif Require Import Base StorageModel MatrixModel PoleModel.
Import ListNotations.
Open Scope Z_scope.

(** reading a double; indeterminate values are UB *)
Definition getv (h : mem R) (A : mat) (i j : Z) : res R :=
  c <- get R h A i j ;; match c with Some v => Ok v | None => UB end.
Definition putv (h : mem R) (A : mat) (i j : Z) (v : R) : res (mem R) := put h A i j (Some v).

(** ** NormalizedLegendreFactors: lines 13-48; [f3] is never used *)
Definition table_size : Z := 201.
(** f1: lines 22, 26-29, 37 *)
Definition f1 (n m : Z) : res R :=
  if (0 <=? m) && (m <=? n) && (n <? table_size) then
    Ok (if n =? m then (if n =? 0 then 0%R else if n =? 1 then sqrt 3 else sqrt ((2 * IZR n + 1) / (2 * IZR n)))
        else sqrt ((2 * IZR n + 1) / IZR ((n + m) * (n - m)) * (2 * IZR n - 1)))
  else UB.
(** f2: lines 23, 39-40 *)
Definition f2 (n m : Z) : res R :=
  if (0 <=? m) && (m <=? n) && (n <? table_size) then
    Ok (if n =? m then 0%R
        else (- sqrt ((2 * IZR n + 1) / IZR ((n + m) * (n - m)) * IZR (n - m - 1) * IZR (n + m - 1) / (2 * IZR n - 3)))%R)
  else UB.

Record vec3 := V3 { vx : R; vy : R; vz : R }.
(** symmetric: the code writes gxy, gxz and gyz in two places each *)
Record sym3 := Sy { gxx : R; gxy : R; gxz : R; gyy : R; gyz : R; gzz : R }.
Definition vadd (a b : vec3) : vec3 := V3 (vx a + vx b) (vy a + vy b) (vz a + vz b).
Definition vscale (k : R) (a : vec3) : vec3 := V3 (vx a * k) (vy a * k) (vz a * k).
Definition sadd (a b : sym3) : sym3 :=
  Sy (gxx a + gxx b) (gxy a + gxy b) (gxz a + gxz b) (gyy a + gyy b) (gyz a + gyz b) (gzz a + gzz b).
Definition sscale (k : R) (a : sym3) : sym3 := Sy (gxx a * k) (gxy a * k) (gxz a * k) (gyy a * k) (gyz a * k) (gzz a * k).

(** ** the functions M and W: lines 112-159 *)
Section Basis.
  Variables (M W : mat) (x y z rr : R).
  (** lines 130, 145, 146: element (n, m) from the two above it *)
  Definition advance (A : mat) (m : Z) (h : mem R) (n : Z) : res (mem R) :=
    a <- f1 n m ;; u <- getv h A (n - 1) m ;; b <- f2 n m ;; v <- getv h A (n - 2) m ;;
    putv h A n m (a * z * u + b * rr * v).
  (** lines 136-137, 153-154 *)
  Definition diagonal (h : mem R) (m : Z) : res (mem R) :=
    f <- f1 m m ;;
    u <- getv h M (m - 1) (m - 1) ;; v <- getv h W (m - 1) (m - 1) ;; h1 <- putv h M m m (f * (x * u - y * v)) ;;
    u1 <- getv h1 M (m - 1) (m - 1) ;; v1 <- getv h1 W (m - 1) (m - 1) ;; putv h1 W m m (f * (y * u1 + x * v1)).
  (** lines 134-148: body of the loop over m *)
  Definition order_column (degree : Z) (h : mem R) (m : Z) : res (mem R) :=
    h1 <- diagonal h m ;;
    f <- f1 (m + 1) m ;;
    u <- getv h1 M m m ;; h2 <- putv h1 M (m + 1) m (f * z * u) ;;
    v <- getv h2 W m m ;; h3 <- putv h2 W (m + 1) m (f * z * v) ;;
    fold_res (fun h n => h' <- advance M m h n ;; advance W m h' n) (zrange2 (m + 2) (degree + 3)) h3.
  (** lines 124-155; [nrm] is rs.norm() *)
  Definition basis (degree order : Z) (nrm : R) (h : mem R) : res (mem R) :=
    h1 <- putv h M 0 0 (1 / nrm) ;;
    u <- getv h1 M 0 0 ;; h2 <- putv h1 M 1 0 (sqrt 3 * z * u) ;;
    h3 <- fold_res (advance M 0) (zrange2 2 (degree + 3)) h2 ;;
    h4 <- fold_res (order_column degree) (zrange2 1 (order + 2)) h3 ;;
    diagonal h4 (order + 2).
End Basis.

(** ** the sums *)
Section Terms.
  (** reading C, S, M, W *)
  Variables C S M W : Z -> Z -> res R.
  Definition w2 (a b : Z) : R := sqrt (IZR a * IZR b).
  Definition w4 (a b c d : Z) : R := sqrt (IZR a * IZR b * IZR c * IZR d).
  (** lines 170-206, 255-281 (m = 1): acceleration, m >= 1 *)
  Definition acc_term (n m : Z) : res vec3 :=
    let wm1 := if m =? 1 then (w2 (n - m + 1) (n - m + 2) * sqrt 2)%R else w2 (n - m + 1) (n - m + 2) in
    let wm0 := w2 (n - m + 1) (n + m + 1) in
    let wp1 := w2 (n + m + 1) (n + m + 2) in
    a <- M (n + 1) (m - 1) ;; b <- W (n + 1) (m - 1) ;; c <- M (n + 1) m ;; d <- W (n + 1) m ;;
    e <- M (n + 1) (m + 1) ;; f <- W (n + 1) (m + 1) ;; cc <- C n m ;; ss <- S n m ;;
    let Cm1 := (wm1 * a)%R in let Sm1 := (wm1 * b)%R in let Cm0 := (wm0 * c)%R in let Sm0 := (wm0 * d)%R in
    let Cp1 := (wp1 * e)%R in let Sp1 := (wp1 * f)%R in
    Ok (vscale (sqrt ((2 * IZR n + 1) / (2 * IZR n + 3)))
      (V3 (cc * (Cm1 - Cp1) + ss * (Sm1 - Sp1)) (cc * (- Sm1 - Sp1) + ss * (Cm1 + Cp1)) (cc * (-2 * Cm0) + ss * (-2 * Sm0)))).
  (** lines 325-341: acceleration, m = 0 *)
  Definition acc_term0 (n : Z) : res vec3 :=
    let wm0 := w2 (n + 1) (n + 1) in let wp1 := (w2 (n + 1) (n + 2) / sqrt 2)%R in
    a <- M (n + 1) 0 ;; b <- M (n + 1) 1 ;; c <- W (n + 1) 1 ;; cc <- C n 0 ;;
    let Cm0 := (wm0 * a)%R in let Cp1 := (wp1 * b)%R in let Sp1 := (wp1 * c)%R in
    Ok (vscale (sqrt ((2 * IZR n + 1) / (2 * IZR n + 3))) (V3 (cc * (-2 * Cp1)) (cc * (-2 * Sp1)) (cc * (-2 * Cm0)))).
  (** lines 207-247: gradient, m >= 2 *)
  Definition grad_term (n m : Z) : res sym3 :=
    let wm2 := (w4 (n - m + 1) (n - m + 2) (n - m + 3) (n - m + 4) * (if m =? 2 then sqrt 2 else 1))%R in
    let wm1 := w4 (n - m + 1) (n - m + 2) (n - m + 3) (n + m + 1) in
    let wm0 := w4 (n - m + 1) (n - m + 2) (n + m + 1) (n + m + 2) in
    let wp1 := w4 (n - m + 1) (n + m + 1) (n + m + 2) (n + m + 3) in
    let wp2 := w4 (n + m + 1) (n + m + 2) (n + m + 3) (n + m + 4) in
    a <- M (n + 2) (m - 2) ;; b <- W (n + 2) (m - 2) ;; c <- M (n + 2) (m - 1) ;; d <- W (n + 2) (m - 1) ;;
    e <- M (n + 2) m ;; f <- W (n + 2) m ;; g <- M (n + 2) (m + 1) ;; i <- W (n + 2) (m + 1) ;;
    j <- M (n + 2) (m + 2) ;; k <- W (n + 2) (m + 2) ;; cc <- C n m ;; ss <- S n m ;;
    let Cm2 := (wm2 * a)%R in let Sm2 := (wm2 * b)%R in let Cm1 := (wm1 * c)%R in let Sm1 := (wm1 * d)%R in
    let Cm0 := (wm0 * e)%R in let Sm0 := (wm0 * f)%R in let Cp1 := (wp1 * g)%R in let Sp1 := (wp1 * i)%R in
    let Cp2 := (wp2 * j)%R in let Sp2 := (wp2 * k)%R in
    Ok (sscale (sqrt ((2 * IZR n + 1) / (2 * IZR n + 5)))
      (Sy (cc * (Cm2 - 2 * Cm0 + Cp2) + ss * (Sm2 - 2 * Sm0 + Sp2))
          (cc * (- Sm2 + Sp2) + ss * (Cm2 - Cp2))
          (cc * (-2 * Cm1 + 2 * Cp1) + ss * (-2 * Sm1 + 2 * Sp1))
          (cc * (- Cm2 - 2 * Cm0 - Cp2) + ss * (- Sm2 - 2 * Sm0 - Sp2))
          (cc * (2 * Sm1 + 2 * Sp1) + ss * (-2 * Cm1 - 2 * Cp1))
          (cc * (4 * Cm0) + ss * (4 * Sm0)))).
  (** lines 282-318: gradient, m = 1 *)
  Definition grad_term1 (n : Z) : res sym3 :=
    let m := 1 in
    let wm1 := (w4 (n - m + 1) (n - m + 2) (n - m + 3) (n + m + 1) * sqrt 2)%R in
    let wm0 := w4 (n - m + 1) (n - m + 2) (n + m + 1) (n + m + 2) in
    let wp1 := w4 (n - m + 1) (n + m + 1) (n + m + 2) (n + m + 3) in
    let wp2 := w4 (n + m + 1) (n + m + 2) (n + m + 3) (n + m + 4) in
    c <- M (n + 2) (m - 1) ;; d <- W (n + 2) (m - 1) ;;
    e <- M (n + 2) m ;; f <- W (n + 2) m ;; g <- M (n + 2) (m + 1) ;; i <- W (n + 2) (m + 1) ;;
    j <- M (n + 2) (m + 2) ;; k <- W (n + 2) (m + 2) ;; cc <- C n m ;; ss <- S n m ;;
    let Cm1 := (wm1 * c)%R in let Sm1 := (wm1 * d)%R in
    let Cm0 := (wm0 * e)%R in let Sm0 := (wm0 * f)%R in let Cp1 := (wp1 * g)%R in let Sp1 := (wp1 * i)%R in
    let Cp2 := (wp2 * j)%R in let Sp2 := (wp2 * k)%R in
    Ok (sscale (sqrt ((2 * IZR n + 1) / (2 * IZR n + 5)))
      (Sy (cc * (-3 * Cm0 + Cp2) + ss * (- Sm0 + Sp2))
          (cc * (- Sm0 + Sp2) + ss * (- Cm0 - Cp2))
          (cc * (-2 * Cm1 + 2 * Cp1) + ss * (-2 * Sm1 + 2 * Sp1))
          (cc * (- Cm0 - Cp2) + ss * (-3 * Sm0 - Sp2))
          (cc * (2 * Sp1) + ss * (-2 * Cm1 - 2 * Cp1))
          (cc * (4 * Cm0) + ss * (4 * Sm0)))).
  (** lines 342-370: gradient, m = 0 *)
  Definition grad_term0 (n : Z) : res sym3 :=
    let wm0 := w4 (n + 1) (n + 2) (n + 1) (n + 2) in
    let wp1 := (w4 (n + 1) (n + 1) (n + 2) (n + 3) / sqrt 2)%R in
    let wp2 := (w4 (n + 1) (n + 2) (n + 3) (n + 4) / sqrt 2)%R in
    e <- M (n + 2) 0 ;; g <- M (n + 2) 1 ;; i <- W (n + 2) 1 ;; j <- M (n + 2) 2 ;; k <- W (n + 2) 2 ;; cc <- C n 0 ;;
    let Cm0 := (wm0 * e)%R in let Cp1 := (wp1 * g)%R in let Sp1 := (wp1 * i)%R in
    let Cp2 := (wp2 * j)%R in let Sp2 := (wp2 * k)%R in
    Ok (sscale (sqrt ((2 * IZR n + 1) / (2 * IZR n + 5)))
      (Sy (cc * (-2 * Cm0 + 2 * Cp2)) (cc * (2 * Sp2)) (cc * (4 * Cp1)) (cc * (-2 * Cm0 - 2 * Cp2)) (cc * (4 * Sp1)) (cc * (4 * Cm0)))).
  (** one pass of the loops: element (n, m) *)
  Definition one_term (s : vec3 * sym3) (p : Z * Z) : res (vec3 * sym3) :=
    let (n, m) := p in
    a <- (if m =? 0 then acc_term0 n else acc_term n m) ;;
    g <- (if m =? 0 then grad_term0 n else if m =? 1 then grad_term1 n else grad_term n m) ;;
    Ok (vadd (fst s) a, sadd (snd s) g).
End Terms.
(** for (i = hi; i >= lo; --i) *)
Definition zdown (hi lo : Z) : list Z := map (fun k => hi - k) (zrange (hi - lo + 1)).
(** order of evaluation: loops in lines 168-169, 253, 323; the second one does not look at the order *)
Definition positions (degree order : Z) : list (Z * Z) :=
  flat_map (fun m => map (fun n => (n, m)) (zdown degree m)) (zdown order 2) ++
  map (fun n => (n, 1)) (zdown degree 1) ++ map (fun n => (n, 0)) (zdown degree 0).

(** the class StokesCoeffs as far as used here: stokes_coefficients.hpp:39-49 *)
Record stokes := mkSt { gC : mat; gS : mat; gdeg : Z; gord : Z; gRe : R; gGM : R }.
Definition zero_sum : vec3 * sym3 := (V3 0 0 0, Sy 0 0 0 0 0 0).
(** sh2gradient_cunningham_impl: lines 72-379; result: acceleration and gradient *)
Definition cunningham_impl (cs : stokes) (r : vec3) (degree order : Z) (Re GM : R) (M W : mat) (h : mem R) : res (mem R * (vec3 * sym3)) :=
  if table_size - 3 <? degree then Abort else
  h1 <- fill_with R h W 0%R ;; h2 <- fill_with R h1 M 0%R ;;
  let sx := (vx r / Re)%R in let sy := (vy r / Re)%R in let sz := (vz r / Re)%R in
  let nrm := sqrt (sx * sx + sy * sy + sz * sz) in
  let rr := (1 / nrm * (1 / nrm))%R in
  h3 <- basis M W (sx * rr) (sy * rr) (sz * rr) rr degree order nrm h2 ;;
  s <- fold_res (one_term (getv h3 (gC cs)) (getv h3 (gS cs)) (getv h3 M) (getv h3 W)) (positions degree order) zero_sum ;;
  Ok (h3, (vscale (GM / (2 * Re * Re)) (fst s), sscale (GM / (4 * Re * Re * Re)) (snd s))).

(** new CoeffMatrix2D(rows, rows) if the pointer is null: lines 427-436 *)
Definition scratch (h : mem R) (o : option mat) (n : Z) : res (mem R * mat) :=
  match o with Some m => Ok (h, m) | None => ctor R h LwTriCol n n end.
(** delete: lines 453-456 *)
Definition discard (h : mem R) (o : option mat) (m : mat) : res (mem R) :=
  match o with Some _ => Ok h | None => dtor R h m end.
(** sh2gradient_cunningham: lines 382-460; status 1: acc and gradient are left alone *)
Definition cunningham (cs : stokes) (r : vec3) (max_degree max_order : Z) (Re GM : R) (W M : option mat) (h : mem R) : res (mem R * option (vec3 * sym3)) :=
  let degree := if max_degree <? 0 then gdeg cs else max_degree in
  let order := if max_order <? 0 then gord cs else max_order in
  if degree <? order then Ok (h, None) else
  if gdeg cs <? degree then Ok (h, None) else
  if gord cs <? order then Ok (h, None) else
  let Re := if Rlt_dec Re 0 then gRe cs else Re in
  let GM := if Rlt_dec GM 0 then gGM cs else GM in
  ' (h1, w) <- scratch h W (degree + 2) ;;
  ' (h2, m) <- scratch h1 M (degree + 2) ;;
  if (srows (st w) <? degree + 2) || (scols (st w) <? degree + 2) || (srows (st m) <? degree + 2) || (scols (st m) <? degree + 2) then Ok (h2, None) else
  ' (h3, s) <- cunningham_impl cs r degree order Re GM m w h2 ;;
  h4 <- discard h3 W w ;; h5 <- discard h4 M m ;; Ok (h5, Some s).
