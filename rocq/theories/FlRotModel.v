(** Earth rotation with rounding: include/earth_rotation.hpp and src/lib/earth_rotation/c2i06a.cpp. The relations hold of every result
    that evaluations with rounding at each operation may give, as in FlModel. Eigen adds the four products of a component of a
    quaternion product in an order that depends on the vector instructions in use; any order is allowed here, and products contracted
    into a sum as well. *)
From Coq Require Import Reals List Permutation.
From Verif Require Import Vec FundModel RotModel FlModel FlCipModel FlEraModel.
Import ListNotations.
Open Scope R_scope.

(** a sum of floating-point numbers in some order *)
Inductive sum_run : list R -> R -> Prop :=
| sum_one x : sum_run [x] x
| sum_two l l1 l2 a b v : Permutation l (l1 ++ l2) -> sum_run l1 a -> sum_run l2 b -> near (a + b) v -> sum_run l v.
(** a sum of products *)
Definition dot_run (l : list (R * R)) (v : R) : Prop := exists ps, Forall2 (fun p x => near (fst p * snd p) x) l ps /\ sum_run ps v.

(** ** Eigen *)
(** Quaternion * Quaternion *)
Definition qmul_run (a b q : quat) : Prop :=
  dot_run [(qw a, qw b); (- qx a, qx b); (- qy a, qy b); (- qz a, qz b)] (qw q) /\
  dot_run [(qw a, qx b); (qx a, qw b); (qy a, qz b); (- qz a, qy b)] (qx q) /\
  dot_run [(qw a, qy b); (qy a, qw b); (qz a, qx b); (- qx a, qz b)] (qy q) /\
  dot_run [(qw a, qz b); (qz a, qw b); (qx a, qy b); (- qy a, qx b)] (qz q).
(** Quaternion(AngleAxis): the angle is halved without rounding, apart from underflow; the products of the sine with the components
    0 and 1 of the axis are exact *)
Definition half_run (t c s : R) : Prop := exists h, Rabs (h - t / 2) <= tiny /\ Rabs (c - cos h) <= / 2 ^ 52 /\ Rabs (s - sin h) <= / 2 ^ 52.
Definition aaX_run (t : R) (q : quat) : Prop := half_run t (qw q) (qx q) /\ qy q = 0 /\ qz q = 0.
Definition aaY_run (t : R) (q : quat) : Prop := half_run t (qw q) (qy q) /\ qx q = 0 /\ qz q = 0.
Definition aaZ_run (t : R) (q : quat) : Prop := half_run t (qw q) (qz q) /\ qx q = 0 /\ qy q = 0.
(** Quaternion * Vector3: _transformVector *)
Definition cross_run (a b c : v3) : Prop :=
  dot_run [(p2 a, p3 b); (- p3 a, p2 b)] (p1 c) /\ dot_run [(p3 a, p1 b); (- p1 a, p3 b)] (p2 c) /\ dot_run [(p1 a, p2 b); (- p2 a, p1 b)] (p3 c).
Definition vnear (x v : v3) : Prop := near (p1 x) (p1 v) /\ near (p2 x) (p2 v) /\ near (p3 x) (p3 v).
Definition qapp_run (q : quat) (v r : v3) : Prop :=
  let w := mk3 (qx q) (qy q) (qz q) in
  exists uv c a b, cross_run w v uv /\ vnear (vmul (qw q) (vplus uv uv)) a /\ vnear (vplus v a) b /\ cross_run w (vplus uv uv) c /\ vnear (vplus b c) r.

(** ** earth_rotation.hpp *)
(** xycip2spherical: lines 95-105; std::atan2 and std::atan with errors of one unit in the last place of results up to pi *)
Definition spherical_run (X Y d e : R) : Prop :=
  exists xx yy r2 n q r, near (X * X) xx /\ near (Y * Y) yy /\ near (xx + yy) r2 /\ near (1 - r2) n /\ near (r2 / n) q /\ near (sqrt q) r /\
    Rabs (d - atan r) <= / 2 ^ 52 /\ if Rlt_dec 0 r2 then Rabs (e - atan2 Y X) <= / 2 ^ 51 else e = 0.
(** c2i: lines 302-308 *)
Definition c2i_run (era s sp d e xp yp : R) (q : quat) : Prop :=
  exists t1 t2 t3 a1 a2 a3 a4 a5 q1 q2 q3, near (- sp - era) t1 /\ near (t1 + e) t2 /\ near (t2 + s) t3 /\
    aaX_run yp a1 /\ aaY_run xp a2 /\ aaZ_run t3 a3 /\ aaY_run (- d) a4 /\ aaZ_run (- e) a5 /\
    qmul_run a1 a2 q1 /\ qmul_run q1 a3 q2 /\ qmul_run q2 a4 q3 /\ qmul_run q3 a5 q.
(** c2tirs: lines 335-340 *)
Definition c2tirs_run (era s d e : R) (q : quat) : Prop :=
  exists t2 t3 a3 a4 a5 q1, near (- era + e) t2 /\ near (t2 + s) t3 /\ aaZ_run t3 a3 /\ aaY_run (- d) a4 /\ aaZ_run (- e) a5 /\ qmul_run a3 a4 q1 /\ qmul_run q1 a5 q.
(** tirs2i: lines 355-359 *)
Definition tirs2i_run (xp yp sp : R) (q : quat) : Prop :=
  exists a1 a2 a3 q1, aaX_run yp a1 /\ aaY_run xp a2 /\ aaZ_run (- sp) a3 /\ qmul_run a1 a2 q1 /\ qmul_run q1 a3 q.

(** ** c2i06a.cpp:4-29 and c2i06apq.cpp:4-33, for the clock readings T handed out by the datetime library *)
(** sec2rad (geodesy library), as in FlModel *)
Definition sec_run (a v : R) : Prop := Rabs (v - FundModel.sec2rad a) <= 4 * u * Rabs (FundModel.sec2rad a) + tiny.
Definition pole_run (T : times) (o : eop) (X Y s : R) : Prop :=
  exists x y F dx dy, xycip06a_run (td2pi T) (ttt T) x y F /\ s06_run (td2pi T) (ttt T) x y s /\
    sec_run (e_dX o) dx /\ sec_run (e_dY o) dy /\ near (x + dx) X /\ near (y + dy) Y.
Definition c2i06a_run (T : times) (o : eop) (q : quat) : Prop :=
  exists X Y s d e era sp xp yp, pole_run T o X Y s /\ spherical_run X Y d e /\ era_run T era /\ sp00_run T sp /\
    sec_run (e_xp o) xp /\ sec_run (e_yp o) yp /\ c2i_run era s sp d e xp yp q.
Definition c2i06a_pq_run (T : times) (o : eop) (qc qt : quat) : Prop :=
  exists X Y s d e era sp xp yp, pole_run T o X Y s /\ spherical_run X Y d e /\ era_run T era /\ sp00_run T sp /\
    sec_run (e_xp o) xp /\ sec_run (e_yp o) yp /\ c2tirs_run era s d e qc /\ tirs2i_run xp yp sp qt.

(** ** Quaternion * Quaternion in binary64, the version of Eigen without vector instructions *)
From Verif Require Import KahanModel FlFloatModel.
Record quat64 := Q64 { w64 : KahanModel.double; x64 : KahanModel.double; y64 : KahanModel.double; z64 : KahanModel.double }.
Definition qmul64 (a b : quat64) : quat64 :=
  Q64 (dsub (dsub (dsub (dmul (w64 a) (w64 b)) (dmul (x64 a) (x64 b))) (dmul (y64 a) (y64 b))) (dmul (z64 a) (z64 b)))
      (dsub (dadd (dadd (dmul (w64 a) (x64 b)) (dmul (x64 a) (w64 b))) (dmul (y64 a) (z64 b))) (dmul (z64 a) (y64 b)))
      (dsub (dadd (dadd (dmul (w64 a) (y64 b)) (dmul (y64 a) (w64 b))) (dmul (z64 a) (x64 b))) (dmul (x64 a) (z64 b)))
      (dsub (dadd (dadd (dmul (w64 a) (z64 b)) (dmul (z64 a) (w64 b))) (dmul (x64 a) (y64 b))) (dmul (y64 a) (x64 b))).
