(** Third body attraction (src/lib/gravity/point_mass_acceleration.cpp) and relativistic acceleration
    (src/lib/relativity/iers12010_relativistic_correction.cpp) with rounding (FlModel). The expressions of the code are data in the
    order in which the code evaluates them. Eigen evaluates r - rcb, r * 1e-3 and the like at each use; here each use may round
    differently: more results than the code can give. *)
From Coq Require Import Reals.
From Verif Require Import Vec FlModel FlCunModel.
Open Scope R_scope.

(** a double; a decimal literal; -, +, -, *, /, std::sqrt; std::pow(a, 3); a sum of three in either order (Eigen's reductions) *)
Inductive fx := Val (x : R) | Cst (x : R) | Ng (a : fx) | Pl (a b : fx) | Mi (a b : fx) | Ti (a b : fx) | Ov (a b : fx) | Rt (a : fx) | Cu (a : fx) | Su (a b c : fx).
Fixpoint exact (e : fx) : R :=
  match e with
  | Val x | Cst x => x | Ng a => - exact a | Pl a b => exact a + exact b | Mi a b => exact a - exact b | Ti a b => exact a * exact b
  | Ov a b => exact a / exact b | Rt a => sqrt (exact a) | Cu a => exact a ^ 3 | Su a b c => exact a + exact b + exact c
  end.
(** std::pow: within one unit in the last place *)
Definition pow3_run (x v : R) : Prop := Rabs (v - x ^ 3) <= 2 * u * Rabs (x ^ 3) + tiny.
Fixpoint rounded (e : fx) (v : R) : Prop :=
  match e with
  | Val x => v = x | Cst x => near x v
  | Ng a => rounded a (- v)
  | Pl a b => exists x y, rounded a x /\ rounded b y /\ near (x + y) v
  | Mi a b => exists x y, rounded a x /\ rounded b y /\ near (x - y) v
  | Ti a b => exists x y, rounded a x /\ rounded b y /\ near (x * y) v
  | Ov a b => exists x y, rounded a x /\ rounded b y /\ near (x / y) v
  | Rt a => exists x, rounded a x /\ near (sqrt x) v
  | Cu a => exists x, rounded a x /\ pow3_run x v
  | Su a b c => exists x y z, rounded a x /\ rounded b y /\ rounded c z /\ sum3_run x y z v
  end.

(** ** vectors: Eigen::Matrix<double, 3, 1> *)
Record fv := mkF { f1 : fx; f2 : fx; f3 : fx }.
Definition fval (a : v3) : fv := mkF (Val (p1 a)) (Val (p2 a)) (Val (p3 a)).
Definition fmap2 (o : fx -> fx -> fx) (a b : fv) : fv := mkF (o (f1 a) (f1 b)) (o (f2 a) (f2 b)) (o (f3 a) (f3 b)).
(** scalar * vector, vector * scalar, vector / scalar *)
Definition fscale (k : fx) (a : fv) : fv := mkF (Ti k (f1 a)) (Ti k (f2 a)) (Ti k (f3 a)).
Definition fover (a : fv) (k : fx) : fv := mkF (Ov (f1 a) k) (Ov (f2 a) k) (Ov (f3 a) k).
Definition fneg (a : fv) : fv := mkF (Ng (f1 a)) (Ng (f2 a)) (Ng (f3 a)).
Definition fdot (a b : fv) : fx := Su (Ti (f1 a) (f1 b)) (Ti (f2 a) (f2 b)) (Ti (f3 a) (f3 b)).
Definition fnorm (a : fv) : fx := Rt (fdot a a).
Definition fcross (a b : fv) : fv :=
  mkF (Mi (Ti (f2 a) (f3 b)) (Ti (f3 a) (f2 b))) (Mi (Ti (f3 a) (f1 b)) (Ti (f1 a) (f3 b))) (Mi (Ti (f1 a) (f2 b)) (Ti (f2 a) (f1 b))).
Definition vexact (a : fv) : v3 := mk3 (exact (f1 a)) (exact (f2 a)) (exact (f3 a)).
Definition vrounded (a : fv) (v : v3) : Prop := rounded (f1 a) (p1 v) /\ rounded (f2 a) (p2 v) /\ rounded (f3 a) (p3 v).

(** ** point_mass_acceleration.cpp:3-13 *)
Definition cube (s : fv) : fx := Ti (fdot s s) (fnorm s).
Definition pm_ex (r b : v3) (GM : R) : fv :=
  let s := fmap2 Mi (fval r) (fval b) in
  fscale (Val (- GM)) (fmap2 Pl (fover s (cube s)) (fover (fval b) (cube (fval b)))).
Definition pm_acceleration_run (r b : v3) (GM : R) (o : v3) : Prop := vrounded (pm_ex r b GM) o.
(** lines 15-32, element (i, j) of J *)
Definition part (i : nat) (a : fv) : fx := match i with O => f1 a | S O => f2 a | _ => f3 a end.
Definition pm_jacobian_ex (r b : v3) (GM : R) (i j : nat) : fx :=
  let s := fmap2 Mi (fval r) (fval b) in
  let S3 := cube s in let S5 := Ti S3 (fdot s s) in
  Ti (Val (- GM)) (Mi (Ov (Val (if Nat.eqb i j then 1 else 0)) S3) (Ov (Ti (Ti (Val 3) (part i s)) (part j s)) S5)).
Definition pm_partials_run (r b : v3) (GM : R) (o : v3) (J : nat -> nat -> R) : Prop :=
  vrounded (pm_ex r b GM) o /\ forall i j, (i < 3)%nat -> (j < 3)%nat -> rounded (pm_jacobian_ex r b GM i j) (J i j).

(** ** iers12010_relativistic_correction.cpp *)
(** schwarzschild: lines 5-14 *)
Definition schwarzschild_ex (r v : fv) (GMe beta gamma : fx) : fv :=
  fmap2 Pl (fscale (Mi (Ti (Ti (Val 2) (Pl beta gamma)) (Ov GMe (fnorm r))) (Ti gamma (fdot v v))) r)
           (fscale (Ti (Ti (Val 2) (Pl (Val 1) gamma)) (fdot r v)) v).
(** lens_thirring: lines 17-30 *)
Definition lens_thirring_ex (r v : fv) (J gamma : fx) : fv :=
  let s := fnorm r in let j := mkF (Val 0) (Val 0) J in
  fscale (Pl (Val 1) gamma) (fmap2 Pl (fscale (fdot r j) (fscale (Ov (Ov (Val 3) s) s) (fcross r v))) (fcross v j)).
(** geodesic: lines 33-46 *)
Definition geodesic_ex (r v re ve : fv) (GMe GMs gamma : fx) : fv :=
  fscale (Ov (Cu (fnorm r)) (Cu (fnorm re))) (fscale (Ov GMs GMe) (fscale (Pl (Val 1) (Ti (Val 2) gamma)) (fcross (fcross ve re) v))).
(** lines 49-70 *)
Definition relativistic_ex (r v rs vs : v3) (GMe GMs J c beta gamma : R) : fv :=
  let km a := fscale (Cst 1e-3) (fval a) in
  let GMe := Ti (Val GMe) (Cst 1e-9) in
  let GMs := Ti (Val GMs) (Cst 1e-9) in
  let J := Ti (Val J) (Cst 1e-6) in
  let c := Ti (Val c) (Cst 1e-3) in
  let s := fnorm (km r) in
  let f := Ov GMe (Ti (Ti (Ti (Ti c c) s) s) s) in
  fscale (Val 1e3) (fscale f (fmap2 Mi (fmap2 Pl (schwarzschild_ex (km r) (km v) GMe (Val beta) (Val gamma)) (lens_thirring_ex (km r) (km v) J (Val gamma)))
    (geodesic_ex (km r) (km v) (fneg (km rs)) (fneg (km vs)) GMe GMs (Val gamma)))).
Definition relativistic_run (r v rs vs : v3) (GMe GMs J c beta gamma : R) (o : v3) : Prop := vrounded (relativistic_ex r v rs vs GMe GMs J c beta gamma) o.
